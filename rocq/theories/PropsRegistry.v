(** C89: which class data is loaded as and which methods a class has, after any decorations. *)
From Coq Require Import List Ascii String Bool Arith Lia.
From Verif Require Import Base FsModel RegistryModel.
Import ListNotations.

Local Arguments str_eq_dec : simpl never.
Local Arguments Nat.eq_dec : simpl never.

(** ** Specification *)
(** The class and the name a decoration makes serializable. *)
Definition claims (K : classes) (d : deco) (c : nat) (s : str) : Prop :=
  match d with DSer c' nm _ | DModel c' nm _ _ _ => c' = c /\ s = match nm with Some s => s | None => k_name K c end | _ => False end.
(** No class has been decorated; the user's own methods may be there. *)
Definition undecorated (g : reg) : Prop := g_ser g = [] /\ g_sto g = [] /\ forall c, g_own g c ASer = None /\ g_own g c ASto = None.
(** Every class has at most one parent. *)
Definition single_inheritance (K : classes) : Prop :=
  forall c, exists p, k_mro K c = c :: match p with Some p => k_mro K p | None => [] end.
(** [c] derives from [p]. *)
Definition derives (K : classes) (c p : nat) : Prop := In p (k_mro K c).

(** The class and the name a decoration makes storable. *)
Definition claims_file (K : classes) (d : deco) (c : nat) (s : str) : Prop :=
  match d with DSto c' nm | DModel c' nm _ _ true => c' = c /\ s = match nm with Some s => s | None => k_name K c end | _ => False end.
(** Modelclasses that are to be storable have no template (with one, the decoration may fail before it comes to that). *)
Definition no_storable_template (d : deco) : Prop := match d with DModel _ _ (Some _) _ true => False | _ => True end.

(** ** Proof *)
Section Registry.
Variable K : classes.
Notation gat := (getattr K).

Lemma setattr_own g c a v d b : g_own (setattr g c a v) d b = if Nat.eq_dec d c then if attr_eq_dec b a then Some v else g_own g d b else g_own g d b.
Proof. reflexivity. Qed.
Lemma setattr_other g c a v d b : b <> a -> g_own (setattr g c a v) d b = g_own g d b.
Proof. intros H. rewrite setattr_own. destruct (Nat.eq_dec d c); [|reflexivity]. destruct (attr_eq_dec b a); congruence. Qed.
Lemma first_of_ext {A} (f h : nat -> option A) l : (forall x, In x l -> f x = h x) -> first_of f l = first_of h l.
Proof.
  induction l as [|x l IH]; intros H; [reflexivity|]. cbn. rewrite (H x) by (left; reflexivity). destruct (h x); [reflexivity|]. apply IH. intros y Hy. apply H. right. exact Hy.
Qed.
Lemma first_of_app {A} (f : nat -> option A) l m : first_of f (l ++ m) = match first_of f l with Some v => Some v | None => first_of f m end.
Proof. induction l as [|x l IH]; [reflexivity|]. cbn. destruct (f x); [reflexivity|exact IH]. Qed.

(** The registry of serializable types and the names on the classes change only as claimed. *)
Definition same_names (g g' : reg) : Prop := g_ser g' = g_ser g /\ forall x, g_own g' x ASer = g_own g x ASer.
Lemma same_refl g : same_names g g. Proof. split; reflexivity. Qed.
Lemma same_trans a b c : same_names a b -> same_names b c -> same_names a c.
Proof. intros [A B] [C D]. split; [congruence|intros x; rewrite D; apply B]. Qed.
Lemma same_set g c a v : a <> ASer -> same_names g (setattr g c a v).
Proof. intros H. split; [reflexivity|intros x; apply setattr_other; congruence]. Qed.
Lemma same_unless g c a v : a <> ASer -> same_names g (set_unless K g c a v).
Proof. intros H. unfold set_unless. destruct (hasattr K g c a); [apply same_refl|apply same_set; exact H]. Qed.
Lemma ser_names g c nm t : exists g0, g0 = register_ser (setattr g c ASer (VName (local_name K c nm))) (local_name K c nm) c /\ same_names g0 (fst (serializable K g c nm t)).
Proof.
  eexists. split; [reflexivity|]. unfold serializable. set (g0 := register_ser _ _ _). destruct t as [t|].
  - assert (Hs : forall g1, same_names g0 g1 -> same_names g0 (fst (match (if hasattr K g1 c ASerialize then (g1, None)
                 else match serialize_template K g1 c t with
                      | (g, Ok v) => (setattr g c ASerialize v, None)
                      | (g, Exn e) => (g, Some e)
                      end) with
          | (g, Some e) => (g, Some e)
          | (g, None) => check_methods K (set_unless K g c ADeserialize (VTemplate t)) c ASerialize ADeserialize
          end))).
    { intros g1 H1. destruct (hasattr K g1 c ASerialize).
      - cbn [check_methods fst]. eapply same_trans; [exact H1|apply same_unless; discriminate].
      - unfold serialize_template. destruct (hasattr K g1 t AConvert); [|destruct (hasattr K g1 c AFields)]; cbn [check_methods fst].
        + eapply same_trans; [exact H1|]. eapply same_trans; [|apply same_unless; discriminate]. apply same_set; discriminate.
        + eapply same_trans; [exact H1|]. eapply same_trans; [|apply same_unless; discriminate]. eapply same_trans; [|apply same_set; discriminate]. apply same_set; discriminate.
        + exact H1. }
    destruct (hasattr K g0 c AConvert); [apply Hs, same_refl|]. destruct (negb _); [apply same_refl|].
    destruct (hasattr K g0 t ADeconvert); [apply Hs, same_refl|apply Hs, same_set; discriminate].
  - cbn [check_methods fst]. destruct (hasattr K g0 c AFields); [|destruct (k_enum K c)]; try apply same_refl;
      (eapply same_trans; apply same_unless; discriminate).
Qed.
Lemma sto_names g c nm : same_names g (fst (storable K g c nm)).
Proof.
  unfold storable. cbn [check_methods fst]. set (g0 := register_sto _ _ _). assert (H0 : same_names g g0) by (split; [reflexivity|intros x; apply setattr_other; discriminate]).
  eapply same_trans; [exact H0|]. destruct (is_serializable K g0 c); [|destruct (hasattr K g0 c AFields)]; try apply same_refl;
    (eapply same_trans; apply same_unless; discriminate).
Qed.
Definition claim_of (d : deco) : option (nat * str) :=
  match d with DSer c nm _ | DModel c nm _ _ _ => Some (c, local_name K c nm) | _ => None end.
Lemma claim_iff d c s : claims K d c s <-> claim_of d = Some (c, s).
Proof.
  unfold claims, claim_of, local_name. destruct d as [c'|c' nm t|c' nm|c' nm t b o]; (split; [intros H; try contradiction; try (destruct H as [-> ->]; reflexivity)|intros H; try discriminate; injection H as -> <-; auto]).
Qed.
Lemma deco_names g d : match claim_of d with
  | None => same_names g (fst (decorate K g d))
  | Some (c, s) => g_ser (fst (decorate K g d)) = (s, c) :: g_ser g /\ forall x, g_own (fst (decorate K g d)) x ASer = if Nat.eq_dec x c then Some (VName s) else g_own g x ASer end.
Proof.
  assert (Hs : forall g c nm t, g_ser (fst (serializable K g c nm t)) = (local_name K c nm, c) :: g_ser g /\
      forall x, g_own (fst (serializable K g c nm t)) x ASer = if Nat.eq_dec x c then Some (VName (local_name K c nm)) else g_own g x ASer).
  { intros g0 c nm t. destruct (ser_names g0 c nm t) as (g1 & -> & A & B). split; [rewrite A; reflexivity|]. intros x. rewrite B. cbn [register_ser g_own]. rewrite setattr_own. reflexivity. }
  destruct d as [c|c nm t|c nm|c nm t b o]; cbn [claim_of decorate].
  - apply same_set; discriminate.
  - apply Hs.
  - apply sto_names.
  - unfold modelclass. set (r := match t with Some t0 => _ | None => _ end).
    assert (Hr : g_ser (fst r) = (local_name K c nm, c) :: g_ser g /\ forall x, g_own (fst r) x ASer = if Nat.eq_dec x c then Some (VName (local_name K c nm)) else g_own g x ASer).
    { subst r. destruct t as [t|].
      - destruct (Hs (setattr g c AFields (VUser 0)) c nm (Some t)) as [A B]. split; [exact A|]. intros x. rewrite B. destruct (Nat.eq_dec x c); [reflexivity|]. apply setattr_other. discriminate.
      - set (g1 := set_unless K _ c ADeserialize _). assert (H1 : same_names g g1).
        { eapply same_trans; [|apply same_unless; discriminate]. eapply same_trans; [|apply same_unless; discriminate]. apply same_set; discriminate. }
        destruct H1 as [H1 H2]. destruct (Hs g1 c nm None) as [A B]. split; [rewrite A, H1; reflexivity|]. intros x. rewrite B, H2. reflexivity. }
    destruct r as [g1 [e|]]; [exact Hr|]. destruct o; [|exact Hr]. destruct Hr as [A B], (sto_names g1 c nm) as [C D]. cbn [fst] in A, B. split; [congruence|]. intros x. rewrite D. apply B.
Qed.

Lemma all_snoc g ds d : decorate_all K g (ds ++ [d]) = fst (decorate K (decorate_all K g ds) d).
Proof. unfold decorate_all. rewrite fold_left_app. reflexivity. Qed.
(** The last claim of a name, and the last name of a class. *)
Definition last_such (ds : list deco) (P Q : deco -> Prop) : Prop :=
  exists ds1 d ds2, ds = ds1 ++ d :: ds2 /\ P d /\ forall d', In d' ds2 -> ~ Q d'.
Lemma last_snoc ds d (P Q : deco -> Prop) : last_such (ds ++ [d]) P Q <-> P d \/ (~ Q d /\ last_such ds P Q) \/ (P d /\ False).
Proof.
  split.
  - intros (ds1 & e & ds2 & H & HP & HQ). destruct (exists_last (l := e :: ds2)) as (r & z & Hr); [discriminate|].
    rewrite Hr, app_assoc in H. apply app_inj_tail in H as [H ->]. destruct r as [|e' r].
    + cbn in Hr. injection Hr as -> ->. auto.
    + cbn in Hr. injection Hr as <- ->. right. left. split; [apply HQ, in_or_app; right; left; reflexivity|].
      exists ds1, e, r. split; [exact H|]. split; [exact HP|]. intros d' Hd. apply HQ, in_or_app. auto.
  - intros [H|[[Hn (ds1 & e & ds2 & -> & HP & HQ)]|[_ []]]].
    + exists ds, d, []. split; [reflexivity|]. split; [exact H|intros d' []].
    + exists ds1, e, (ds2 ++ [d]). split; [rewrite <- app_assoc; reflexivity|]. split; [exact HP|]. intros d' Hd. apply in_app_or in Hd as [Hd|[<-|[]]]; auto.
Qed.
Lemma registry_spec g ds s c : g_ser g = [] ->
  (assoc s (g_ser (decorate_all K g ds)) = Some c <-> last_such ds (fun d => claims K d c s) (fun d => exists c', claims K d c' s)).
Proof.
  intros Hg. revert c. induction ds as [|d ds IH] using rev_ind; intros c.
  - cbn. rewrite Hg. cbn. split; [discriminate|]. intros (ds1 & d & ds2 & H & _). destruct ds1; discriminate.
  - rewrite all_snoc, last_snoc. pose proof (deco_names (decorate_all K g ds) d) as D. set (g1 := decorate_all K g ds) in *. rewrite claim_iff.
    destruct (claim_of d) as [[c0 s0]|] eqn:Ec.
    + destruct D as [D _]. rewrite D. cbn [assoc]. destruct (str_eq_dec s0 s) as [->|Hs].
      * split; [intros H; injection H as ->; auto|]. intros [H|[[H _]|[_ []]]]; [congruence|]. exfalso. apply H. exists c0. apply claim_iff. exact Ec.
      * rewrite IH. split.
        { intros H. right. left. split; [|exact H]. intros [c' H']. apply claim_iff in H'. rewrite Ec in H'. congruence. }
        { intros [H|[[_ H]|[_ []]]]; [congruence|exact H]. }
    + destruct D as [D _]. rewrite D, IH. split.
      { intros H. right. left. split; [|exact H]. intros [c' H']. apply claim_iff in H'. rewrite Ec in H'. discriminate. }
      { intros [H|[[_ H]|[_ []]]]; [discriminate|exact H]. }
Qed.
Lemma name_spec g ds c v : (forall x, g_own g x ASer = None) ->
  (g_own (decorate_all K g ds) c ASer = Some v <-> exists s, v = VName s /\ last_such ds (fun d => claims K d c s) (fun d => exists s', claims K d c s')).
Proof.
  intros Hg. revert v. induction ds as [|d ds IH] using rev_ind; intros v.
  - cbn. rewrite Hg. split; [discriminate|]. intros (s & _ & ds1 & d & ds2 & H & _). destruct ds1; discriminate.
  - rewrite all_snoc. pose proof (deco_names (decorate_all K g ds) d) as D. set (g1 := decorate_all K g ds) in *.
    assert (Hno : claim_of d = None \/ (exists c0 s0, claim_of d = Some (c0, s0) /\ c0 <> c) ->
      ((exists s, v = VName s /\ last_such ds (fun d => claims K d c s) (fun d => exists s', claims K d c s')) <->
       (exists s, v = VName s /\ last_such (ds ++ [d]) (fun d => claims K d c s) (fun d => exists s', claims K d c s')))).
    { intros Hc. assert (Hd : forall s, ~ claims K d c s).
      { intros s H. apply claim_iff in H. destruct Hc as [Hc|(c0 & s0 & Hc & Hn)]; congruence. }
      split; intros (s & -> & H); exists s; (split; [reflexivity|]).
      - apply last_snoc. right. left. split; [intros [s' H']; exact (Hd s' H')|exact H].
      - apply last_snoc in H as [H|[[_ H]|[_ []]]]; [destruct (Hd s H)|exact H]. }
    destruct (claim_of d) as [[c0 s0]|] eqn:Ec.
    + destruct D as [_ D]. rewrite D. destruct (Nat.eq_dec c c0) as [->|Hn].
      * split.
        { intros H. injection H as <-. exists s0. split; [reflexivity|]. apply last_snoc. left. apply claim_iff. exact Ec. }
        { intros (s & -> & H). apply last_snoc in H as [H|[[H _]|[_ []]]]; [apply claim_iff in H; congruence|]. exfalso. apply H. exists s0. apply claim_iff. exact Ec. }
      * rewrite IH. apply Hno. right. eauto.
    + destruct D as [_ D]. rewrite D, IH. apply Hno. auto.
Qed.

(** Methods once found stay. *)
Hypothesis Hsi : single_inheritance K.
Lemma mro_head c : exists r, k_mro K c = c :: r.
Proof. destruct (Hsi c) as [p H]. eauto. Qed.
Lemma mro_split n : forall x c, List.length (k_mro K x) <= n -> In c (k_mro K x) -> exists pre, k_mro K x = pre ++ k_mro K c /\ ~ In c pre.
Proof.
  induction n as [|n IH]; intros x c Hl Hi.
  - destruct (mro_head x) as [r Hr]. rewrite Hr in Hl. cbn in Hl. lia.
  - destruct (Nat.eq_dec x c) as [->|Hn]; [exists []; split; [reflexivity|auto]|].
    destruct (Hsi x) as [p Hp]. rewrite Hp in Hi. destruct Hi as [Hi|Hi]; [congruence|]. destruct p as [p|]; [|destruct Hi].
    destruct (IH p c) as (pre & H1 & H2); [rewrite Hp in Hl; cbn in Hl; lia|exact Hi|]. exists (x :: pre). rewrite Hp, H1. split; [reflexivity|]. intros [H|H]; auto.
Qed.
Definition keeps (a : attr) (g g' : reg) : Prop := forall x v, gat g x a = Some v -> gat g' x a = Some v.
Lemma keeps_refl a g : keeps a g g. Proof. intros x v H. exact H. Qed.
Lemma keeps_trans a g h k : keeps a g h -> keeps a h k -> keeps a g k. Proof. intros A B x v H. auto. Qed.
Lemma keeps_other a g c b v : a <> b -> keeps a g (setattr g c b v).
Proof. intros H x w Hx. unfold getattr in *. rewrite <- Hx. apply first_of_ext. intros y _. apply setattr_other. exact H. Qed.
Lemma keeps_reg_ser a g s c : keeps a g (register_ser g s c). Proof. intros x v H. exact H. Qed.
Lemma keeps_reg_sto a g s c : keeps a g (register_sto g s c). Proof. intros x v H. exact H. Qed.
Lemma keeps_fresh a g c v : gat g c a = None -> keeps a g (setattr g c a v).
Proof.
  intros Hn x w Hx. unfold getattr in *. destruct (in_dec Nat.eq_dec c (k_mro K x)) as [Hi|Hi].
  - destruct (mro_split _ x c (le_n _) Hi) as (pre & Hp & Hni). rewrite Hp in *. rewrite first_of_app in *.
    rewrite (first_of_ext (fun d => g_own (setattr g c a v) d a) (fun d => g_own g d a) pre).
    + destruct (first_of (fun d => g_own g d a) pre); [exact Hx|]. rewrite Hn in Hx. discriminate.
    + intros y Hy. rewrite setattr_own. destruct (Nat.eq_dec y c) as [->|]; [contradiction|reflexivity].
  - rewrite <- Hx. apply first_of_ext. intros y Hy. rewrite setattr_own. destruct (Nat.eq_dec y c) as [->|]; [contradiction|reflexivity].
Qed.
Lemma keeps_unless a g c b v : keeps a g (set_unless K g c b v).
Proof.
  unfold set_unless, hasattr. destruct (gat g c b) eqn:E; [apply keeps_refl|]. destruct (attr_eq_dec a b) as [->|]; [apply keeps_fresh; exact E|apply keeps_other; assumption].
Qed.
Lemma keeps_set a g c b v : hasattr K g c b = false -> keeps a g (setattr g c b v).
Proof. unfold hasattr. destruct (gat g c b) eqn:E; [discriminate|]. intros _. destruct (attr_eq_dec a b) as [->|]; [apply keeps_fresh; exact E|apply keeps_other; assumption]. Qed.
Lemma has_other g c d b a v : a <> b -> hasattr K (setattr g c b v) d a = hasattr K g d a.
Proof. intros H. unfold hasattr, getattr. rewrite (first_of_ext _ (fun x => g_own g x a)); [reflexivity|]. intros x _. apply setattr_other. exact H. Qed.
Lemma keeps_serializable a g c nm t : a <> ASer -> keeps a g (fst (serializable K g c nm t)).
Proof.
  intros Ha. unfold serializable. set (g0 := register_ser _ _ _).
  assert (H0 : keeps a g g0) by (eapply keeps_trans; [apply (keeps_other a g c ASer); exact Ha|apply keeps_reg_ser]).
  eapply keeps_trans; [exact H0|]. clear H0. clearbody g0. destruct t as [t|].
  - assert (Hs : forall g1, keeps a g0 g1 -> keeps a g0 (fst (match (if hasattr K g1 c ASerialize then (g1, None)
                 else match serialize_template K g1 c t with
                      | (g, Ok v) => (setattr g c ASerialize v, None)
                      | (g, Exn e) => (g, Some e)
                      end) with
          | (g, Some e) => (g, Some e)
          | (g, None) => check_methods K (set_unless K g c ADeserialize (VTemplate t)) c ASerialize ADeserialize
          end))).
    { intros g1 H1. eapply keeps_trans; [exact H1|]. destruct (hasattr K g1 c ASerialize) eqn:E1.
      - cbn [check_methods fst]. apply keeps_unless.
      - unfold serialize_template. destruct (hasattr K g1 t AConvert) eqn:E2; [|destruct (hasattr K g1 c AFields)]; cbn [check_methods fst].
        + eapply keeps_trans; [|apply keeps_unless]. apply keeps_set. exact E1.
        + eapply keeps_trans; [|apply keeps_unless]. eapply keeps_trans; [apply (keeps_set a g1 t AConvert); exact E2|]. apply keeps_set. rewrite has_other by discriminate. exact E1.
        + apply keeps_refl. }
    destruct (hasattr K g0 c AConvert) eqn:E; [apply Hs, keeps_refl|]. destruct (negb _); [apply keeps_refl|].
    destruct (hasattr K g0 t ADeconvert); [apply Hs, keeps_refl|apply Hs, keeps_set; exact E].
  - cbn [check_methods fst]. destruct (hasattr K g0 c AFields); [|destruct (k_enum K c)]; try apply keeps_refl; (eapply keeps_trans; apply keeps_unless).
Qed.
Lemma keeps_storable a g c nm : a <> ASto -> keeps a g (fst (storable K g c nm)).
Proof.
  intros Ha. unfold storable. cbn [check_methods fst]. set (g0 := register_sto _ _ _).
  assert (H0 : keeps a g g0) by (eapply keeps_trans; [apply (keeps_other a g c ASto); exact Ha|apply keeps_reg_sto]).
  eapply keeps_trans; [exact H0|]. destruct (is_serializable K g0 c); [|destruct (hasattr K g0 c AFields)]; try apply keeps_refl; (eapply keeps_trans; apply keeps_unless).
Qed.
Definition method (a : attr) : Prop := In a [ASerialize; ADeserialize; AWrite; ARead].
Lemma method_not a : method a -> a <> ASer /\ a <> ASto /\ a <> AFields.
Proof. intros [<-|[<-|[<-|[<-|[]]]]]; repeat split; discriminate. Qed.
Lemma keeps_decorate a g d : method a -> keeps a g (fst (decorate K g d)).
Proof.
  intros Hm. apply method_not in Hm as (H1 & H2 & H3). destruct d as [c|c nm t|c nm|c nm t b o]; cbn [decorate].
  - apply keeps_other. exact H3.
  - apply keeps_serializable. exact H1.
  - apply keeps_storable. exact H2.
  - unfold modelclass. set (r := match t with Some t0 => _ | None => _ end).
    assert (Hr : keeps a g (fst r)).
    { subst r. destruct t as [t|].
      - eapply keeps_trans; [apply (keeps_other a g c AFields); exact H3|apply keeps_serializable; exact H1].
      - eapply keeps_trans; [|apply keeps_serializable; exact H1]. eapply keeps_trans; [|apply keeps_unless]. eapply keeps_trans; [|apply keeps_unless]. apply keeps_other. exact H3. }
    destruct r as [g1 [e|]]; [exact Hr|]. destruct o; [|exact Hr]. eapply keeps_trans; [exact Hr|apply keeps_storable; exact H2].
Qed.
Lemma keeps_all a ds : forall g, method a -> keeps a g (decorate_all K g ds).
Proof.
  induction ds as [|d ds IH]; intros g Hm; [apply keeps_refl|]. eapply keeps_trans; [apply (keeps_decorate a g d Hm)|apply (IH (fst (decorate K g d)) Hm)].
Qed.
(** The same for storables. *)
Definition same_files (g g' : reg) : Prop := g_sto g' = g_sto g /\ forall x, g_own g' x ASto = g_own g x ASto.
Lemma files_refl g : same_files g g. Proof. split; reflexivity. Qed.
Lemma files_trans a b c : same_files a b -> same_files b c -> same_files a c.
Proof. intros [A B] [C D]. split; [congruence|intros x; rewrite D; apply B]. Qed.
Lemma files_set g c a v : a <> ASto -> same_files g (setattr g c a v).
Proof. intros H. split; [reflexivity|intros x; apply setattr_other; congruence]. Qed.
Lemma files_unless g c a v : a <> ASto -> same_files g (set_unless K g c a v).
Proof. intros H. unfold set_unless. destruct (hasattr K g c a); [apply files_refl|apply files_set; exact H]. Qed.
Lemma ser_files g c nm t : same_files g (fst (serializable K g c nm t)).
Proof.
  unfold serializable. set (g0 := register_ser _ _ _). assert (H0 : same_files g g0) by (split; [reflexivity|intros x; apply setattr_other; discriminate]).
  eapply files_trans; [exact H0|]. clear H0. clearbody g0. destruct t as [t|].
  - assert (Hs : forall g1, same_files g0 g1 -> same_files g0 (fst (match (if hasattr K g1 c ASerialize then (g1, None)
                 else match serialize_template K g1 c t with
                      | (g, Ok v) => (setattr g c ASerialize v, None)
                      | (g, Exn e) => (g, Some e)
                      end) with
          | (g, Some e) => (g, Some e)
          | (g, None) => check_methods K (set_unless K g c ADeserialize (VTemplate t)) c ASerialize ADeserialize
          end))).
    { intros g1 H1. eapply files_trans; [exact H1|]. destruct (hasattr K g1 c ASerialize).
      - cbn [check_methods fst]. apply files_unless; discriminate.
      - unfold serialize_template. destruct (hasattr K g1 t AConvert); [|destruct (hasattr K g1 c AFields)]; cbn [check_methods fst].
        + eapply files_trans; [|apply files_unless; discriminate]. apply files_set; discriminate.
        + eapply files_trans; [|apply files_unless; discriminate]. eapply files_trans; [|apply files_set; discriminate]. apply files_set; discriminate.
        + apply files_refl. }
    destruct (hasattr K g0 c AConvert); [apply Hs, files_refl|]. destruct (negb _); [apply files_refl|].
    destruct (hasattr K g0 t ADeconvert); [apply Hs, files_refl|apply Hs, files_set; discriminate].
  - cbn [check_methods fst]. destruct (hasattr K g0 c AFields); [|destruct (k_enum K c)]; try apply files_refl;
      (eapply files_trans; apply files_unless; discriminate).
Qed.
Definition sto_claim (d : deco) : option (nat * str) :=
  match d with DSto c nm | DModel c nm _ _ true => Some (c, local_name K c nm) | _ => None end.
Lemma sto_iff d c s : claims_file K d c s <-> sto_claim d = Some (c, s).
Proof.
  unfold claims_file, sto_claim, local_name. destruct d as [c'|c' nm t|c' nm|c' nm t b [|]]; (split; [intros H; try contradiction; try (destruct H as [-> ->]; reflexivity)|intros H; try discriminate; injection H as -> <-; auto]).
Qed.
Hypothesis Hown : forall c, exists r, k_mro K c = c :: r.
Lemma own_found g c a v : g_own g c a = Some v -> gat g c a = Some v.
Proof. intros H. unfold getattr. destruct (Hown c) as [r ->]. cbn [first_of]. rewrite H. reflexivity. Qed.
Lemma unless_has g c a v : hasattr K (set_unless K g c a v) c a = true.
Proof.
  unfold set_unless. destruct (hasattr K g c a) eqn:E; [exact E|]. unfold hasattr. rewrite (own_found _ c a v); [reflexivity|].
  rewrite setattr_own. destruct (Nat.eq_dec c c); [|congruence]. destruct (attr_eq_dec a a); congruence.
Qed.
Lemma has_set_other g c b v d a : a <> b -> hasattr K (setattr g c b v) d a = hasattr K g d a.
Proof. intros H. unfold hasattr, getattr. rewrite (first_of_ext _ (fun x => g_own g x a)); [reflexivity|]. intros x _. apply setattr_other. exact H. Qed.
Lemma has_unless_other g c b v d a : a <> b -> hasattr K (set_unless K g c b v) d a = hasattr K g d a.
Proof. intros H. unfold set_unless. destruct (hasattr K g c b); [reflexivity|]. apply has_set_other. exact H. Qed.
Lemma sto_registers g c nm : g_sto (fst (storable K g c nm)) = (local_name K c nm, c) :: g_sto g /\
  forall x, g_own (fst (storable K g c nm)) x ASto = if Nat.eq_dec x c then Some (VName (local_name K c nm)) else g_own g x ASto.
Proof.
  unfold storable. cbn [check_methods fst]. set (g0 := register_sto _ _ _).
  assert (H : forall g1, same_files g0 g1 -> g_sto g1 = (local_name K c nm, c) :: g_sto g /\ forall x, g_own g1 x ASto = if Nat.eq_dec x c then Some (VName (local_name K c nm)) else g_own g x ASto).
  { intros g1 [A B]. split; [rewrite A; reflexivity|]. intros x. rewrite B. unfold g0. cbn [register_sto g_own]. rewrite setattr_own. reflexivity. }
  apply H. destruct (is_serializable K g0 c); [|destruct (hasattr K g0 c AFields)]; try apply files_refl; (eapply files_trans; apply files_unless; discriminate).
Qed.
(** A modelclass without a template always gets its methods. *)
Lemma model_succeeds g c nm b : snd (serializable K (set_unless K (set_unless K (setattr g c AFields (VUser 0)) c ASerialize (VModel b)) c ADeserialize (VModel b)) c nm None) = None.
Proof.
  set (h := set_unless K (set_unless K _ c ASerialize _) c ADeserialize _).
  assert (H1 : hasattr K h c ASerialize = true) by (unfold h; rewrite has_unless_other by discriminate; apply unless_has).
  assert (H2 : hasattr K h c ADeserialize = true) by apply unless_has.
  unfold serializable. set (g0 := register_ser _ _ _).
  assert (G1 : hasattr K g0 c ASerialize = true) by (unfold g0; exact (eq_trans (has_set_other h c ASer _ c ASerialize ltac:(discriminate)) H1)).
  assert (G2 : hasattr K g0 c ADeserialize = true) by (unfold g0; exact (eq_trans (has_set_other h c ASer _ c ADeserialize ltac:(discriminate)) H2)).
  cbn [check_methods snd]. unfold set_unless.
  destruct (hasattr K g0 c AFields); [|destruct (k_enum K c)]; rewrite ?G1, ?G2; rewrite ?G1, ?G2; reflexivity.
Qed.
Lemma deco_sto g d : no_storable_template d -> match sto_claim d with
  | None => same_files g (fst (decorate K g d))
  | Some (c, s) => g_sto (fst (decorate K g d)) = (s, c) :: g_sto g /\ forall x, g_own (fst (decorate K g d)) x ASto = if Nat.eq_dec x c then Some (VName s) else g_own g x ASto end.
Proof.
  intros Ht. destruct d as [c|c nm t|c nm|c nm t b o]; cbn [sto_claim decorate].
  - apply files_set; discriminate.
  - apply ser_files.
  - apply sto_registers.
  - unfold modelclass. set (r := match t with Some t0 => _ | None => _ end).
    assert (Hr : same_files g (fst r)).
    { subst r. destruct t as [t|].
      - eapply files_trans; [|apply ser_files]. apply files_set; discriminate.
      - eapply files_trans; [|apply ser_files]. eapply files_trans; [|apply files_unless; discriminate]. eapply files_trans; [|apply files_unless; discriminate]. apply files_set; discriminate. }
    destruct o.
    + destruct t as [t|]; [destruct Ht|]. assert (Hn : snd r = None) by (subst r; apply model_succeeds).
      destruct r as [g1 [e|]]; [discriminate|]. destruct Hr as [A B], (sto_registers g1 c nm) as [C D]. cbn [fst] in A, B. split; [congruence|]. intros x. rewrite D, B. reflexivity.
    + destruct r as [g1 [e|]]; exact Hr.
Qed.
Lemma registry_sto g ds s c : g_sto g = [] -> Forall no_storable_template ds ->
  (assoc s (g_sto (decorate_all K g ds)) = Some c <-> last_such ds (fun d => claims_file K d c s) (fun d => exists c', claims_file K d c' s)).
Proof.
  intros Hg. intros Hds0; revert Hds0 c. induction ds as [|d ds IH] using rev_ind; intros Hds c.
  - cbn. rewrite Hg. cbn. split; [discriminate|]. intros (ds1 & d & ds2 & H & _). destruct ds1; discriminate.
  - apply Forall_app in Hds as [Hds Hd0]. inversion_clear Hd0 as [|? ? Hd1 _]. rename Hd1 into Hd0. specialize (IH Hds). rewrite all_snoc, last_snoc. pose proof (deco_sto (decorate_all K g ds) d Hd0) as D. set (g1 := decorate_all K g ds) in *. rewrite sto_iff.
    destruct (sto_claim d) as [[c0 s0]|] eqn:Ec.
    + destruct D as [D _]. rewrite D. cbn [assoc]. destruct (str_eq_dec s0 s) as [->|Hs].
      * split; [intros H; injection H as ->; auto|]. intros [H|[[H _]|[_ []]]]; [congruence|]. exfalso. apply H. exists c0. apply sto_iff. exact Ec.
      * rewrite IH. split.
        { intros H. right. left. split; [|exact H]. intros [c' H']. apply sto_iff in H'. rewrite Ec in H'. congruence. }
        { intros [H|[[_ H]|[_ []]]]; [congruence|exact H]. }
    + destruct D as [D _]. rewrite D, IH. split.
      { intros H. right. left. split; [|exact H]. intros [c' H']. apply sto_iff in H'. rewrite Ec in H'. discriminate. }
      { intros [H|[[_ H]|[_ []]]]; [discriminate|exact H]. }
Qed.
Lemma name_sto g ds c v : (forall x, g_own g x ASto = None) -> Forall no_storable_template ds ->
  (g_own (decorate_all K g ds) c ASto = Some v <-> exists s, v = VName s /\ last_such ds (fun d => claims_file K d c s) (fun d => exists s', claims_file K d c s')).
Proof.
  intros Hg. intros Hds0; revert Hds0 v. induction ds as [|d ds IH] using rev_ind; intros Hds v.
  - cbn. rewrite Hg. split; [discriminate|]. intros (s & _ & ds1 & d & ds2 & H & _). destruct ds1; discriminate.
  - apply Forall_app in Hds as [Hds Hd0]. inversion_clear Hd0 as [|? ? Hd1 _]. rename Hd1 into Hd0. specialize (IH Hds). rewrite all_snoc. pose proof (deco_sto (decorate_all K g ds) d Hd0) as D. set (g1 := decorate_all K g ds) in *.
    assert (Hno : sto_claim d = None \/ (exists c0 s0, sto_claim d = Some (c0, s0) /\ c0 <> c) ->
      ((exists s, v = VName s /\ last_such ds (fun d => claims_file K d c s) (fun d => exists s', claims_file K d c s')) <->
       (exists s, v = VName s /\ last_such (ds ++ [d]) (fun d => claims_file K d c s) (fun d => exists s', claims_file K d c s')))).
    { intros Hc. assert (Hd : forall s, ~ claims_file K d c s).
      { intros s H. apply sto_iff in H. destruct Hc as [Hc|(c0 & s0 & Hc & Hn)]; congruence. }
      split; intros (s & -> & H); exists s; (split; [reflexivity|]).
      - apply last_snoc. right. left. split; [intros [s' H']; exact (Hd s' H')|exact H].
      - apply last_snoc in H as [H|[[_ H]|[_ []]]]; [destruct (Hd s H)|exact H]. }
    destruct (sto_claim d) as [[c0 s0]|] eqn:Ec.
    + destruct D as [_ D]. rewrite D. destruct (Nat.eq_dec c c0) as [->|Hn].
      * split.
        { intros H. injection H as <-. exists s0. split; [reflexivity|]. apply last_snoc. left. apply sto_iff. exact Ec. }
        { intros (s & -> & H). apply last_snoc in H as [H|[[H _]|[_ []]]]; [apply sto_iff in H; congruence|]. exfalso. apply H. exists s0. apply sto_iff. exact Ec. }
      * rewrite IH. apply Hno. right. eauto.
    + destruct D as [_ D]. rewrite D, IH. apply Hno. auto.
Qed.

End Registry.

(** ** C89 *)
(** A name stands for the class that was last decorated with it, whether the decoration succeeded or raised. *)
Theorem C89_last_registration_wins : forall K g ds s c, undecorated g ->
  assoc s (g_ser (decorate_all K g ds)) = Some c <->
  exists ds1 d ds2, ds = ds1 ++ d :: ds2 /\ claims K d c s /\ forall d' c', In d' ds2 -> ~ claims K d' c' s.
Proof.
  intros K g ds s c (Hg & _). rewrite registry_spec by exact Hg. split; intros (ds1 & d & ds2 & H1 & H2 & H3); exists ds1, d, ds2; (split; [exact H1|]); (split; [exact H2|]).
  - intros d' c' Hd Hc. apply (H3 d' Hd). eauto.
  - intros d' Hd [c' Hc]. exact (H3 d' c' Hd Hc).
Qed.
Lemma some_last K c : forall ds d s, In d ds -> claims K d c s -> exists s', last_such ds (fun d => claims K d c s') (fun d => exists s', claims K d c s').
Proof.
  induction ds as [|e ds IH] using rev_ind; intros d s Hi Hc; [destruct Hi|].
  assert (Hd : (exists s', claims K e c s') \/ ~ exists s', claims K e c s').
  { destruct (claim_of K e) as [[c0 s0]|] eqn:Ec.
    - destruct (Nat.eq_dec c0 c) as [->|Hn]; [left; exists s0; apply claim_iff; exact Ec|]. right. intros [s' H']. apply claim_iff in H'. congruence.
    - right. intros [s' H']. apply claim_iff in H'. congruence. }
  destruct Hd as [[s' Hs]|Hd].
  - exists s'. apply last_snoc. auto.
  - apply in_app_or in Hi as [Hi|[->|[]]]; [|exfalso; eauto]. destruct (IH d s Hi Hc) as [s' H]. exists s'. apply last_snoc. auto.
Qed.
(** Data of instances of [c] is loaded as [c] exactly if [c] was decorated itself and its (last) name was not taken
    afterwards; data of a class that was not decorated is never loaded as that class. *)
Theorem C89_loaded_as_itself_iff : forall K g ds c, undecorated g -> (exists r, k_mro K c = c :: r) ->
  loaded_as K (decorate_all K g ds) c = Some c <->
  exists ds1 d ds2 s, ds = ds1 ++ d :: ds2 /\ claims K d c s /\ forall d', In d' ds2 -> (forall s', ~ claims K d' c s') /\ (forall c', ~ claims K d' c' s).
Proof.
  intros K g ds c (Hg & _ & Ho) [r Hr]. assert (Ho' : forall x, g_own g x ASer = None) by (intros x; apply Ho).
  assert (Hget : forall s, g_own (decorate_all K g ds) c ASer = Some (VName s) -> loaded_as K (decorate_all K g ds) c = assoc s (g_ser (decorate_all K g ds))).
  { intros s H. unfold loaded_as, getattr. rewrite Hr. cbn [first_of]. rewrite H. reflexivity. }
  split.
  - intros H. assert (Hin : exists d s, In d ds /\ claims K d c s).
    { unfold loaded_as in H. destruct (getattr K (decorate_all K g ds) c ASer) as [[s| | | | | | | |]|]; try discriminate.
      apply registry_spec in H as (ds1 & d & ds2 & -> & Hc & _); [|exact Hg]. exists d, s. split; [apply in_or_app; right; left; reflexivity|exact Hc]. }
    destruct Hin as (d & s & Hd & Hc). destruct (some_last K c ds d s Hd Hc) as [s1 L].
    assert (N : g_own (decorate_all K g ds) c ASer = Some (VName s1)) by (apply name_spec; [exact Ho'|eauto]).
    rewrite (Hget s1 N) in H. apply registry_spec in H; [|exact Hg].
    destruct L as (l1 & e & l2 & E1 & P1 & Q1), H as (m1 & f & m2 & E2 & P2 & Q2).
    rewrite E2 in E1. assert (He : m1 = l1 /\ f = e /\ m2 = l2).
    { clear - E1 P1 Q1 P2 Q2. revert l1 E1. induction m1 as [|x m1 IH]; intros [|y l1] E1; cbn in E1.
      - injection E1 as -> ->. auto.
      - injection E1 as <- ->. exfalso. apply (Q2 e); [apply in_or_app; right; left; reflexivity|eauto].
      - injection E1 as -> <-. exfalso. apply (Q1 f); [apply in_or_app; right; left; reflexivity|eauto].
      - injection E1 as -> E1. destruct (IH l1 E1) as (-> & -> & ->). auto. }
    destruct He as (-> & -> & ->). exists l1, e, l2, s1. split; [exact E2|]. split; [exact P1|]. intros d' Hd'. split; intros z Hz; [apply (Q1 d' Hd')|apply (Q2 d' Hd')]; eauto.
  - intros (ds1 & d & ds2 & s & E & Hc & Hn).
    assert (N : g_own (decorate_all K g ds) c ASer = Some (VName s)).
    { apply name_spec; [exact Ho'|]. exists s. split; [reflexivity|]. exists ds1, d, ds2. split; [exact E|]. split; [exact Hc|]. intros d' Hd [s' Hs]. exact (proj1 (Hn d' Hd) s' Hs). }
    rewrite (Hget s N). apply registry_spec; [exact Hg|]. exists ds1, d, ds2. split; [exact E|]. split; [exact Hc|]. intros d' Hd [c' Hs]. exact (proj2 (Hn d' Hd) c' Hs).
Qed.
Lemma some_last_file K c : forall ds d s, In d ds -> claims_file K d c s -> exists s', last_such ds (fun d => claims_file K d c s') (fun d => exists s', claims_file K d c s').
Proof.
  induction ds as [|e ds IH] using rev_ind; intros d s Hi Hc; [destruct Hi|].
  assert (Hd : (exists s', claims_file K e c s') \/ ~ exists s', claims_file K e c s').
  { destruct (sto_claim K e) as [[c0 s0]|] eqn:Ec.
    - destruct (Nat.eq_dec c0 c) as [->|Hn]; [left; exists s0; apply sto_iff; exact Ec|]. right. intros [s' H']. apply sto_iff in H'. congruence.
    - right. intros [s' H']. apply sto_iff in H'. congruence. }
  destruct Hd as [[s' Hs]|Hd].
  - exists s'. apply last_snoc. auto.
  - apply in_app_or in Hi as [Hi|[->|[]]]; [|exfalso; eauto]. destruct (IH d s Hi Hc) as [s' H]. exists s'. apply last_snoc. auto.
Qed.
(** Files of instances of [c] are read as [c] exactly if [c] was made storable itself and its (last) name was not taken
    afterwards. *)
Theorem C89_files_read_as_itself_iff : forall K g ds c, undecorated g -> (forall x, exists r, k_mro K x = x :: r) -> Forall no_storable_template ds ->
  read_as K (decorate_all K g ds) c = Some c <->
  exists ds1 d ds2 s, ds = ds1 ++ d :: ds2 /\ claims_file K d c s /\ forall d', In d' ds2 -> (forall s', ~ claims_file K d' c s') /\ (forall c', ~ claims_file K d' c' s).
Proof.
  intros K g ds c (_ & Hg & Ho) Hown Hds. destruct (Hown c) as [r Hr]. assert (Ho' : forall x, g_own g x ASto = None) by (intros x; apply Ho).
  assert (Hget : forall s, g_own (decorate_all K g ds) c ASto = Some (VName s) -> read_as K (decorate_all K g ds) c = assoc s (g_sto (decorate_all K g ds))).
  { intros s H. unfold read_as, getattr. rewrite Hr. cbn [first_of]. rewrite H. reflexivity. }
  split.
  - intros H. assert (Hin : exists d s, In d ds /\ claims_file K d c s).
    { unfold read_as in H. destruct (getattr K (decorate_all K g ds) c ASto) as [[s| | | | | | | |]|]; try discriminate.
      apply registry_sto in H as (ds1 & d & ds2 & -> & Hc & _); [|exact Hown|exact Hg|exact Hds]. exists d, s. split; [apply in_or_app; right; left; reflexivity|exact Hc]. }
    destruct Hin as (d & s & Hd & Hc). destruct (some_last_file K c ds d s Hd Hc) as [s1 L].
    assert (N : g_own (decorate_all K g ds) c ASto = Some (VName s1)) by (apply name_sto; [exact Hown|exact Ho'|exact Hds|eauto]).
    rewrite (Hget s1 N) in H. apply registry_sto in H; [|exact Hown|exact Hg|exact Hds].
    destruct L as (l1 & e & l2 & E1 & P1 & Q1), H as (m1 & f & m2 & E2 & P2 & Q2).
    rewrite E2 in E1. assert (He : m1 = l1 /\ f = e /\ m2 = l2).
    { clear - E1 P1 Q1 P2 Q2. revert l1 E1. induction m1 as [|x m1 IH]; intros [|y l1] E1; cbn in E1.
      - injection E1 as -> ->. auto.
      - injection E1 as <- ->. exfalso. apply (Q2 e); [apply in_or_app; right; left; reflexivity|eauto].
      - injection E1 as -> <-. exfalso. apply (Q1 f); [apply in_or_app; right; left; reflexivity|eauto].
      - injection E1 as -> E1. destruct (IH l1 E1) as (-> & -> & ->). auto. }
    destruct He as (-> & -> & ->). exists l1, e, l2, s1. split; [exact E2|]. split; [exact P1|]. intros d' Hd'. split; intros z Hz; [apply (Q1 d' Hd')|apply (Q2 d' Hd')]; eauto.
  - intros (ds1 & d & ds2 & s & E & Hc & Hn).
    assert (N : g_own (decorate_all K g ds) c ASto = Some (VName s)).
    { apply name_sto; [exact Hown|exact Ho'|exact Hds|]. exists s. split; [reflexivity|]. exists ds1, d, ds2. split; [exact E|]. split; [exact Hc|]. intros d' Hd [s' Hs]. exact (proj1 (Hn d' Hd) s' Hs). }
    rewrite (Hget s N). apply registry_sto; [exact Hown|exact Hg|exact Hds|]. exists ds1, d, ds2. split; [exact E|]. split; [exact Hc|]. intros d' Hd [c' Hs]. exact (proj2 (Hn d' Hd) c' Hs).
Qed.
(** With a template the class and the template get what they need for the conversions: the class a conversion from the
    template unless the template brings one, the template a conversion from the class; methods that are there are used. *)
Theorem C89_template_methods : forall K g c t nm, (forall x, exists r, k_mro K x = x :: r) -> ~ derives K t c -> ~ derives K c t ->
  hasattr K g c AFields = true -> hasattr K g t AFields = true -> getattr K g c ASerialize = None -> getattr K g c ADeserialize = None ->
  let (g', e) := serializable K g c nm (Some t) in
  e = None /\ getattr K g' c ASerialize = Some (VTemplate t) /\ getattr K g' c ADeserialize = Some (VTemplate t) /\
  getattr K g' t AConvert = Some (match getattr K g t AConvert with Some v => v | None => VDefaultConvert end) /\
  getattr K g' c AConvert = match getattr K g c AConvert with Some v => Some v | None => if hasattr K g t ADeconvert then None else Some VDefaultConvert end.
Proof.
  intros K g c t nm Hown Htc Hct Hc Ht Hs Hd.
  assert (Hct' : t <> c) by (intros ->; apply Hct; destruct (Hown c) as [r Hr]; unfold derives; rewrite Hr; left; reflexivity).
  assert (O : forall h x y a b v, a <> b \/ ~ derives K y x -> getattr K (setattr h x b v) y a = getattr K h y a).
  { intros h x y a b v H. unfold getattr. apply first_of_ext. intros z Hz. rewrite setattr_own. destruct (Nat.eq_dec z x) as [->|]; [|reflexivity].
    destruct (attr_eq_dec a b) as [->|]; [|reflexivity]. exfalso. destruct H as [H|H]; [congruence|exact (H Hz)]. }
  assert (S : forall h x a v, getattr K (setattr h x a v) x a = Some v).
  { intros h x a v. apply own_found; [exact Hown|]. rewrite setattr_own. destruct (Nat.eq_dec x x); [|congruence]. destruct (attr_eq_dec a a); congruence. }
  unfold serializable, serialize_template. set (g0 := register_ser _ _ _).
  assert (G0 : forall y a, a <> ASer -> getattr K g0 y a = getattr K g y a) by (intros y a Ha; exact (O g c y a ASer _ (or_introl Ha))).
  unfold hasattr in *. rewrite !G0 by discriminate.
  destruct (getattr K g t AFields) as [vt|] eqn:Et; [|discriminate]. destruct (getattr K g c AFields) as [vc|] eqn:Ec; [|discriminate]. cbn [negb].
  destruct (getattr K g c AConvert) as [kc|] eqn:E1; [|destruct (getattr K g t ADeconvert) as [kd|] eqn:E2];
    (destruct (getattr K g t AConvert) as [kt|] eqn:E3);
    repeat (unfold check_methods, set_unless, hasattr; rewrite ?S, ?G0, ?Hs, ?Hd, ?Et, ?Ec, ?E1, ?E3 by discriminate;
            repeat (rewrite O by (solve [left; discriminate | right; assumption])); cbn iota beta; cbn [andb]);
    rewrite ?S, ?G0, ?Hs, ?Hd, ?E1, ?E3 by discriminate; auto.
Qed.
(** A method that a class has, of its own or inherited, is never replaced by decorating classes: with single inheritance
    the first method stays, for the class and so for all that derive from it. *)
Theorem C89_methods_are_never_replaced : forall K g ds c a v, single_inheritance K -> method a ->
  getattr K g c a = Some v -> getattr K (decorate_all K g ds) c a = Some v.
Proof. intros K g ds c a v Hs Hm H. exact (keeps_all K Hs a ds g Hm c v H). Qed.
(** So the options of a modelclass derived from another are ignored: whatever template and [compact] it is decorated with,
    it is written and read in the way of the class it derives from. *)
Theorem C89_options_of_derived_ignored : forall K g p nm compact sto ds c nm' t' compact' sto', single_inheritance K ->
  derives K c p -> getattr K g c ASerialize = None -> getattr K g c ADeserialize = None ->
  let g' := decorate_all K g (DModel p nm None compact sto :: ds ++ [DModel c nm' t' compact' sto']) in
  getattr K g' c ASerialize = Some (VModel compact) /\ getattr K g' c ADeserialize = Some (VModel compact).
Proof.
  intros K g p nm compact sto ds c nm' t' compact' sto' Hs Hd H1 H2 g'.
  destruct (mro_split K Hs _ c p (le_n _) Hd) as (pre & Hp & Hni).
  assert (Hnone : forall a, getattr K g c a = None -> (forall x, In x pre -> g_own g x a = None) /\ getattr K g p a = None).
  { intros a H. unfold getattr in H. rewrite Hp, first_of_app in H. destruct (first_of (fun d => g_own g d a) pre) eqn:Ef; [discriminate|]. split; [|exact H].
    clear - Ef. induction pre as [|y l IH]; [intros x []|]. cbn in Ef. destruct (g_own g y a) eqn:Ey; [discriminate|]. intros x [<-|Hx]; [exact Ey|exact (IH Ef x Hx)]. }
  set (g1 := setattr g p AFields (VUser 0)).
  set (g2 := set_unless K (set_unless K g1 p ASerialize (VModel compact)) p ADeserialize (VModel compact)).
  assert (Hg2 : getattr K g2 c ASerialize = Some (VModel compact) /\ getattr K g2 c ADeserialize = Some (VModel compact)).
  { destruct (Hnone _ H1) as [A1 A2], (Hnone _ H2) as [B1 B2].
    assert (P1 : hasattr K g1 p ASerialize = false) by (unfold g1; rewrite has_other by discriminate; unfold hasattr; rewrite A2; reflexivity).
    assert (P2 : hasattr K g1 p ADeserialize = false) by (unfold g1; rewrite has_other by discriminate; unfold hasattr; rewrite B2; reflexivity).
    unfold g2, set_unless. rewrite P1, has_other, P2 by discriminate.
    assert (G : forall a h, (forall x, In x pre -> g_own g x a = None) -> g_own h p a = Some (VModel compact) -> (forall x, x <> p -> g_own h x a = g_own g x a) -> getattr K h c a = Some (VModel compact)).
    { intros a h Hpre Hh Ho. unfold getattr. rewrite Hp, first_of_app. rewrite (first_of_ext _ (fun _ => None)).
      - replace (first_of (fun _ : nat => @None value) pre) with (@None value) by (clear; induction pre; [reflexivity|assumption]).
        destruct (mro_head K Hs p) as [r ->]. cbn [first_of]. rewrite Hh. reflexivity.
      - intros x Hx. rewrite Ho by (intros ->; contradiction). apply Hpre. exact Hx. }
    split; (apply G; [assumption|unfold g1; rewrite !setattr_own; destruct (Nat.eq_dec p p); [|congruence]; reflexivity|]);
      (intros x Hx; unfold g1; rewrite !setattr_own; destruct (Nat.eq_dec x p); [congruence|reflexivity]). }
  assert (Hk : forall a, method a -> keeps K a g2 g').
  { intros a Hm. subst g'. change (decorate_all K g (DModel p nm None compact sto :: ?l)) with (decorate_all K (fst (decorate K g (DModel p nm None compact sto))) l).
    eapply keeps_trans; [|apply keeps_all; assumption]. cbn [decorate]. unfold modelclass. fold g1. fold g2.
    pose proof (method_not a Hm) as (M1 & M2 & M3). pose proof (keeps_serializable K Hs a g2 p nm None M1) as Hr. destruct (serializable K g2 p nm None) as [g3 [e|]]; [exact Hr|].
    destruct sto; [|exact Hr]. eapply keeps_trans; [exact Hr|apply keeps_storable; assumption]. }
  split; apply Hk; try apply Hg2; unfold method; cbn; auto.
Qed.
(** The order of decorators decides the format: a dataclass without methods of its own made storable first is written as
    plain JSON of its fields, made serializable first as a serialized object, and this stays. *)
Theorem C89_order_decides_format : forall K g c n1 n2 ds, single_inheritance K -> undecorated g ->
  hasattr K g c AFields = true -> (forall a, method a -> getattr K g c a = None) ->
  getattr K (decorate_all K g (DSto c n1 :: DSer c n2 None :: ds)) c AWrite = Some VDataclassFile /\
  getattr K (decorate_all K g (DSer c n2 None :: DSto c n1 :: ds)) c AWrite = Some VSerializableFile.
Proof.
  intros K g c n1 n2 ds Hs (Hg1 & Hg2 & Ho) Hf Hm.
  destruct (mro_head K Hs c) as [r Hr].
  assert (Hown : forall h a v, g_own h c a = Some v -> getattr K h c a = Some v) by (intros h a v H; unfold getattr; rewrite Hr; cbn [first_of]; rewrite H; reflexivity).
  assert (Hset : forall h a v, g_own (setattr h c a v) c a = Some v).
  { intros h a v. rewrite setattr_own. destruct (Nat.eq_dec c c); [|congruence]. destruct (attr_eq_dec a a); congruence. }
  assert (MW : method AWrite) by (unfold method; cbn; auto). assert (MR : method ARead) by (unfold method; cbn; auto).
  split.
  - change (decorate_all K g (DSto c n1 :: ?l)) with (decorate_all K (fst (decorate K g (DSto c n1))) l). apply (keeps_all K Hs AWrite _ _ MW).
    cbn [decorate]. unfold storable. cbn [check_methods fst]. set (g0 := register_sto _ _ _).
    assert (Hi : is_serializable K g0 c = false).
    { unfold is_serializable, getattr. rewrite (first_of_ext _ (fun _ => None)).
      - replace (first_of (fun _ : nat => @None value) (k_mro K c)) with (@None value) by (clear; induction (k_mro K c); [reflexivity|assumption]). reflexivity.
      - intros x _. unfold g0. cbn [register_sto g_own]. rewrite setattr_other by discriminate. apply Ho. }
    assert (Hf0 : hasattr K g0 c AFields = true) by (unfold g0; exact (eq_trans (has_other K g c c ASto AFields _ ltac:(discriminate)) Hf)).
    assert (Hw0 : hasattr K g0 c AWrite = false) by (unfold g0; refine (eq_trans (has_other K g c c ASto AWrite _ ltac:(discriminate)) _); unfold hasattr; rewrite (Hm _ MW); reflexivity).
    rewrite Hi, Hf0. apply (keeps_unless K Hs). unfold set_unless. rewrite Hw0. apply Hown, Hset.
  - change (decorate_all K g (DSer c n2 None :: DSto c n1 :: ds)) with (decorate_all K (fst (storable K (fst (serializable K g c n2 None)) c n1)) ds). apply (keeps_all K Hs AWrite _ _ MW).
    set (g1 := fst (serializable K g c n2 None)).
    assert (N : g_own g1 c ASer = Some (VName (local_name K c n2)) /\ g_ser g1 = (local_name K c n2, c) :: g_ser g).
    { destruct (deco_names K g (DSer c n2 None)) as [A B]. cbn [decorate] in A, B. fold g1 in A, B. split; [|exact A]. rewrite B. destruct (Nat.eq_dec c c); congruence. }
    destruct N as [N1 N2].
    assert (Hw1 : hasattr K g1 c AWrite = false).
    { assert (G : forall h, (forall x, g_own h x AWrite = g_own g x AWrite) -> hasattr K h c AWrite = false).
      { intros h Hh. unfold hasattr, getattr. rewrite (first_of_ext _ (fun x => g_own g x AWrite)) by (intros x _; apply Hh). fold (getattr K g c AWrite). rewrite (Hm _ MW). reflexivity. }
      apply G. intros x. unfold g1, serializable. cbn [check_methods fst].
      assert (U : forall h a v y, a <> AWrite -> g_own (set_unless K h c a v) y AWrite = g_own h y AWrite).
      { intros h a v y Ha. unfold set_unless. destruct (hasattr K h c a); [reflexivity|]. apply setattr_other. congruence. }
      set (g0 := register_ser _ _ _). assert (H0 : g_own g0 x AWrite = g_own g x AWrite) by (apply setattr_other; discriminate).
      destruct (hasattr K g0 c AFields); [|destruct (k_enum K c)]; rewrite ?U by discriminate; exact H0. }
    unfold storable. cbn [check_methods fst]. set (g2 := register_sto _ _ _).
    assert (Hi : is_serializable K g2 c = true).
    { unfold is_serializable. rewrite (Hown g2 ASer (VName (local_name K c n2))) by (unfold g2; cbn [register_sto g_own]; rewrite setattr_other by discriminate; exact N1).
      replace (g_ser g2) with (g_ser g1) by reflexivity. rewrite N2. cbn [assoc]. destruct (str_eq_dec _ _); [reflexivity|congruence]. }
    assert (Hw2 : hasattr K g2 c AWrite = false) by (unfold g2; exact (eq_trans (has_other K g1 c c ASto AWrite _ ltac:(discriminate)) Hw1)).
    rewrite Hi. apply (keeps_unless K Hs). unfold set_unless. rewrite Hw2. apply Hown, Hset.
Qed.
(** A decoration that raises has registered the name all the same: a class that had it before is displaced. *)
Theorem C89_failed_decoration_registers : forall K g c nm, hasattr K g c AFields = false -> k_enum K c = false -> hasattr K g c ASerialize = false ->
  snd (serializable K g c nm None) = Some ValueError /\
  assoc (local_name K c nm) (g_ser (fst (serializable K g c nm None))) = Some c /\
  g_own (fst (serializable K g c nm None)) c ASer = Some (VName (local_name K c nm)).
Proof.
  intros K g c nm Hf He Hs. destruct (deco_names K g (DSer c nm None)) as [A B]. cbn [decorate] in A, B. split; [|split].
  - unfold serializable. set (g0 := register_ser _ _ _).
    assert (Hh : forall a, a <> ASer -> hasattr K g0 c a = hasattr K g c a) by (intros a Ha; exact (has_other K g c c ASer a _ Ha)).
    rewrite Hh, Hf, He by discriminate. cbn [check_methods snd]. rewrite Hh, Hs by discriminate. reflexivity.
  - rewrite A. cbn [assoc]. destruct (str_eq_dec _ _); [reflexivity|congruence].
  - rewrite B. destruct (Nat.eq_dec c c); congruence.
Qed.

(** Classes 0 (a dataclass), 1 derived from 0, and 2 (neither dataclass nor methods); 1 and 2 take names in use. *)
Definition rg_K : classes := mkClasses (fun c => match c with 1 => [1; 0] | c => [c] end) (fun c => match c with 0 => $"A" | 1 => $"B" | _ => $"C" end) (fun _ => false).
Definition rg_0 : reg := mkReg (fun c a => match c, a with 0, AFields => Some (VUser 0) | _, _ => None end) [] [].
Example C89_example :
  single_inheritance rg_K /\ undecorated rg_0 /\ derives rg_K 1 0 /\
  (let g := decorate_all rg_K rg_0 [DModel 0 None None true false; DModel 1 None None false true] in
   loaded_as rg_K g 0 = Some 0 /\ loaded_as rg_K g 1 = Some 1 /\ getattr rg_K g 1 ASerialize = Some (VModel true)) /\
  (let g := decorate_all rg_K rg_0 [DSer 0 None None; DSer 2 (Some ($"A")) None] in loaded_as rg_K g 0 = Some 2 /\ loaded_as rg_K g 1 = Some 2) /\
  snd (serializable rg_K rg_0 2 (Some ($"A")) None) = Some ValueError /\
  getattr rg_K (decorate_all rg_K rg_0 [DSto 0 None; DSer 0 None None]) 0 AWrite = Some VDataclassFile /\
  getattr rg_K (decorate_all rg_K rg_0 [DSer 0 None None; DSto 0 None]) 0 AWrite = Some VSerializableFile.
Proof.
  split.
  { intros [|[|c]]; [exists None|exists (Some 0)|exists None]; reflexivity. }
  split; [repeat split; destruct c as [|[]]; reflexivity|]. split; [right; left; reflexivity|]. vm_compute. repeat split; reflexivity.
Qed.
(** Class 2 with the template 3, both dataclasses; class 0 made storable twice. *)
Definition rg_1 : reg := mkReg (fun c a => match c, a with 0, AFields | 2, AFields | 3, AFields => Some (VUser 0) | _, _ => None end) [] [].
Example C89_example_template :
  (forall x, exists r, k_mro rg_K x = x :: r) /\ ~ derives rg_K 3 2 /\ ~ derives rg_K 2 3 /\
  (let (g', e) := serializable rg_K rg_1 2 None (Some 3) in e = None /\ getattr rg_K g' 2 ASerialize = Some (VTemplate 3) /\ getattr rg_K g' 3 AConvert = Some VDefaultConvert) /\
  (let ds := [DModel 0 None None true true; DSto 2 (Some ($"A"))] in
   Forall no_storable_template ds /\ read_as rg_K (decorate_all rg_K rg_1 ds) 0 = Some 2 /\ loaded_as rg_K (decorate_all rg_K rg_1 ds) 0 = Some 0).
Proof.
  split; [intros [|[|x]]; eexists; reflexivity|]. split; [cbn; intuition discriminate|]. split; [cbn; intuition discriminate|].
  split; [vm_compute; auto|]. split; [repeat constructor|]. vm_compute. auto.
Qed.
Print Assumptions C89_last_registration_wins.
Print Assumptions C89_loaded_as_itself_iff.
Print Assumptions C89_methods_are_never_replaced.
Print Assumptions C89_options_of_derived_ignored.
Print Assumptions C89_order_decides_format.
Print Assumptions C89_failed_decoration_registers.
Print Assumptions C89_files_read_as_itself_iff.
Print Assumptions C89_template_methods.
