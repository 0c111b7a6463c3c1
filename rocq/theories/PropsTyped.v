(** C100: typed arrays and the fields annotated with them. *)
From Coq Require Import List Bool ZArith Arith Lia.
From Verif Require Import Base ArrayModel PropsArray TypedModel.
Import ListNotations.

(** ** Classes *)
Lemma dtype_eqb_spec a b : dtype_eqb a b = true <-> a = b.
Proof. destruct a, b; cbn; split; intros H; try reflexivity; discriminate. Qed.

(** The expression that a class was made by, read off the cache: [expr k c r l] when class [c] is [r[l1][l2]…]. *)
Inductive expr (k : classes) : nat -> root -> list dtype -> Prop :=
| ERoot r : r <> RN -> expr k (root_class r) r []
| ESub c d c' r l : expr k c r l -> cached (k_cache k) c d = Some c' -> expr k c' r (l ++ [d]).

Definition wf (k : classes) : Prop :=
  3 <= k_next k
  /\ (forall c d r, In ((c, d), r) (k_cache k) -> 3 <= r /\ c < r /\ r < k_next k)
  /\ NoDup (map snd (k_cache k)) /\ NoDup (map fst (k_cache k))
  /\ k_presets k = map (fun e => (snd e, (snd e, snd (fst e)))) (k_cache k).

Lemma cached_in l c d r : cached l c d = Some r -> In ((c, d), r) l.
Proof.
  induction l as [|[[c' d'] r'] l IH]; cbn; [discriminate|]. destruct (_ && _) eqn:E.
  - intros H. inversion H; subst. apply andb_prop in E as [E1 E2]. apply Nat.eqb_eq in E1. apply dtype_eqb_spec in E2. subst. left; reflexivity.
  - intros H. right. exact (IH H).
Qed.
Lemma cached_none l c d : cached l c d = None -> forall r, ~ In ((c, d), r) l.
Proof.
  induction l as [|[[c' d'] r'] l IH]; cbn; [tauto|]. destruct (_ && _) eqn:E; [discriminate|].
  intros H r [X|X]; [|exact (IH H r X)]. inversion X; subst. rewrite Nat.eqb_refl in E. destruct d; discriminate.
Qed.
Lemma in_cached l c d r : NoDup (map fst l) -> In ((c, d), r) l -> cached l c d = Some r.
Proof.
  induction l as [|[[c' d'] r'] l IH]; cbn; [tauto|]. intros N H. inversion N as [|? ? N1 N2]; subst.
  destruct (_ && _) eqn:E.
  - apply andb_prop in E as [E1 E2]. apply Nat.eqb_eq in E1. apply dtype_eqb_spec in E2. subst.
    destruct H as [H|H]; [inversion H; reflexivity|]. exfalso. apply N1. apply in_map_iff. exists ((c, d), r). split; [reflexivity | exact H].
  - destruct H as [H|H]; [|exact (IH N2 H)]. inversion H; subst. rewrite Nat.eqb_refl in E. destruct d; discriminate.
Qed.

Lemma getitem_wf k c d : wf k -> c < k_next k ->
  wf (snd (getitem k c d)) /\ fst (getitem k c d) < k_next (snd (getitem k c d))
  /\ k_next k <= k_next (snd (getitem k c d))
  /\ cached (k_cache (snd (getitem k c d))) c d = Some (fst (getitem k c d))
  /\ (forall c2 d2 r, cached (k_cache k) c2 d2 = Some r -> cached (k_cache (snd (getitem k c d))) c2 d2 = Some r).
Proof.
  intros W Hc. pose proof W as (H3 & HI & N1 & N2 & HP). unfold getitem. destruct (cached (k_cache k) c d) as [r|] eqn:E; cbn [fst snd].
  - split; [exact W|]. split; [apply (HI c d r); apply cached_in; exact E|]. split; [lia|]. split; [exact E | auto].
  - cbn [k_cache k_next k_presets]. split; [|split; [lia | split; [lia|]]].
    + unfold wf. cbn [k_cache k_next k_presets map fst snd]. split; [lia|]. split; [|split; [|split]].
      * intros c2 d2 r2 [X|X]; [inversion X; subst; lia|]. destruct (HI _ _ _ X) as (A & B & C). lia.
      * constructor; [|exact N1]. intros X. apply in_map_iff in X as [[[c2 d2] r2] [X1 X2]]. cbn in X1. subst r2.
        destruct (HI _ _ _ X2) as (_ & _ & C). lia.
      * constructor; [|exact N2]. intros X. apply in_map_iff in X as [[[c2 d2] r2] [X1 X2]]. cbn in X1. inversion X1; subst.
        exact (cached_none _ _ _ E _ X2).
      * rewrite HP. reflexivity.
    + split.
      * cbn [cached]. rewrite Nat.eqb_refl. replace (dtype_eqb d d) with true by (destruct d; reflexivity). reflexivity.
      * intros c2 d2 r2 X. cbn [cached]. destruct ((c =? c2) && dtype_eqb d d2) eqn:E2; [|exact X].
        apply andb_prop in E2 as [E3 E4]. apply Nat.eqb_eq in E3. apply dtype_eqb_spec in E4. subst. congruence.
Qed.

Definition grows (k k2 : classes) : Prop :=
  forall c d r, cached (k_cache k) c d = Some r -> cached (k_cache k2) c d = Some r.
Lemma expr_grows k k2 c r l : grows k k2 -> expr k c r l -> expr k2 c r l.
Proof. intros G H. induction H as [r Hr|c d c' r l H IH E]; [constructor; exact Hr|]. econstructor; [exact IH | apply G; exact E]. Qed.

Lemma subscripts_expr l2 : forall k c r l, wf k -> c < k_next k -> expr k c r l ->
  let (c2, k2) := subscripts k c l2 in wf k2 /\ c2 < k_next k2 /\ grows k k2 /\ expr k2 c2 r (l ++ l2).
Proof.
  induction l2 as [|d l2 IH]; intros k c r l W Hc HE; cbn [subscripts].
  - rewrite app_nil_r. split; [exact W|]. split; [exact Hc|]. split; [intros ? ? ? H; exact H | exact HE].
  - destruct (getitem_wf k c d W Hc) as (W1 & B & L & C & G). destruct (getitem k c d) as [c1 k1]; cbn [fst snd] in *.
    assert (HE1 : expr k1 c1 r (l ++ [d])) by (econstructor; [exact (expr_grows k k1 c r l G HE) | exact C]).
    specialize (IH k1 c1 r (l ++ [d]) W1 B HE1). destruct (subscripts k1 c1 l2) as [c2 k2].
    destruct IH as (W2 & B2 & G2 & E2). split; [exact W2|]. split; [exact B2|]. split; [intros ? ? ? H; apply G2, G, H|].
    rewrite <- app_assoc in E2. exact E2.
Qed.
Lemma evaluate_exprs p : forall k, wf k -> (forall r l, In (r, l) p -> r <> RN) ->
  let (cs, k2) := evaluate k p in wf k2 /\ grows k k2 /\ Forall2 (fun c e => expr k2 c (fst e) (snd e)) cs p.
Proof.
  induction p as [|[r l] p IH]; intros k W HR; cbn [evaluate].
  - split; [exact W|]. split; [intros ? ? ? H; exact H | constructor].
  - pose proof W as (H3 & _).
    assert (HE : expr k (root_class r) r []) by (constructor; apply (HR r l); left; reflexivity).
    assert (B : root_class r < k_next k) by (destruct r; cbn; lia).
    pose proof (subscripts_expr l k (root_class r) r [] W B HE) as X. destruct (subscripts k (root_class r) l) as [c k1].
    destruct X as (W1 & B1 & G1 & E1). cbn [app] in E1.
    assert (HR2 : forall r l, In (r, l) p -> r <> RN) by (intros r2 l2 H2; apply (HR r2 l2); right; exact H2).
    specialize (IH k1 W1 HR2). destruct (evaluate k1 p) as [cs k2]. destruct IH as (W2 & G2 & E2).
    split; [exact W2|]. split; [intros ? ? ? H; apply G2, G1, H|]. constructor; [exact (expr_grows _ _ _ _ _ G2 E1) | exact E2].
Qed.

Lemma expr_root_small k c r l : wf k -> expr k c r l -> (l = [] <-> c < 3).
Proof.
  intros (_ & HI & _) H. inversion H as [r' Hr|c0 d c' r' l' H0 E]; subst.
  - split; [intros _; destruct r; cbn; lia | reflexivity].
  - apply cached_in in E. destruct (HI _ _ _ E) as (A & _). split; [destruct l'; discriminate | lia].
Qed.
Lemma expr_det k : wf k -> forall c r l, expr k c r l -> forall c2 r2 l2, expr k c2 r2 l2 -> (c = c2 <-> (r, l) = (r2, l2)).
Proof.
  intros W c r l H. induction H as [r Hr|c d c' r l H IH E]; intros c2 r2 l2 H2.
  - inversion H2 as [r' Hr'|c0 d' c'' r' l' H0 E']; subst.
    + destruct r, r2; cbn; split; intros X; try reflexivity; try discriminate; congruence.
    + assert (L : root_class r < 3) by (destruct r; cbn; lia).
      destruct W as (_ & HI & _). destruct (HI _ _ _ (cached_in _ _ _ _ E')) as (A & _).
      split; [intros X; lia | intros X; inversion X; destruct l'; discriminate].
  - inversion H2 as [r' Hr'|c0 d' c'' r' l' H0 E']; subst.
    + assert (L : root_class r2 < 3) by (destruct r2; cbn; lia).
      destruct W as (_ & HI & _). destruct (HI _ _ _ (cached_in _ _ _ _ E)) as (A & _).
      split; [intros X; lia | intros X; inversion X; destruct l; discriminate].
    + specialize (IH c0 r2 l' H0). split.
      * intros ->. destruct W as (_ & _ & N1 & _ & _).
        assert (K : (c, d) = (c0, d')).
        { pose proof (cached_in _ _ _ _ E) as I1. pose proof (cached_in _ _ _ _ E') as I2.
          clear -N1 I1 I2. induction (k_cache k) as [|e q IHq]; [destruct I1|]. cbn in N1. inversion N1 as [|? ? M1 M2]; subst.
          destruct I1 as [->|I1], I2 as [I2|I2].
          - inversion I2; reflexivity.
          - exfalso. apply M1. cbn. apply in_map_iff. exists ((c0, d'), c2). split; [reflexivity | exact I2].
          - subst e. exfalso. apply M1. cbn. apply in_map_iff. exists ((c, d), c2). split; [reflexivity | exact I1].
          - exact (IHq M2 I1 I2). }
        inversion K; subst. pose proof (proj1 IH eq_refl) as X. inversion X; subst. reflexivity.
      * intros X. inversion X as [[X1 X2]]. apply app_inj_tail in X2 as [X2 X3]. subst.
        pose proof (proj2 IH eq_refl). subst. congruence.
Qed.
Lemma new_wf : wf new_classes.
Proof. unfold wf, new_classes; cbn. split; [lia|]. split; [tauto|]. split; [constructor|]. split; [constructor | reflexivity]. Qed.

(** In any program, two expressions give the same class exactly if they are the same expression: nothing is made twice, and
    different expressions never share a class. *)
Theorem C100_same_class_iff : forall p i j r1 l1 r2 l2,
  (forall r l, In (r, l) p -> r <> RN) ->
  nth_error p i = Some (r1, l1) -> nth_error p j = Some (r2, l2) ->
  (nth_error (fst (evaluate new_classes p)) i = nth_error (fst (evaluate new_classes p)) j <-> (r1, l1) = (r2, l2)).
Proof.
  intros p i j r1 l1 r2 l2 HR Hi Hj. pose proof (evaluate_exprs p new_classes new_wf HR) as X.
  destruct (evaluate new_classes p) as [cs k]. destruct X as (W & _ & FE). cbn [fst].
  assert (N : forall i e, nth_error p i = Some e -> exists c, nth_error cs i = Some c /\ expr k c (fst e) (snd e)).
  { clear -FE. induction FE as [|c e cs p H FE IH]; intros [|i] e' Hi; cbn in Hi; try discriminate.
    - inversion Hi; subst. exists c. split; [reflexivity | exact H].
    - exact (IH i e' Hi). }
  destruct (N i _ Hi) as (c1 & E1 & X1). destruct (N j _ Hj) as (c2 & E2 & X2). rewrite E1, E2.
  pose proof (expr_det k W _ _ _ X1 _ _ _ X2) as D. cbn in D. rewrite <- D. split; [intros X; inversion X; reflexivity | intros ->; reflexivity].
Qed.
(** Each class made has one preset, which converts to that class and the subscript it was made with. *)
Theorem C100_presets : forall p c x d,
  (forall r l, In (r, l) p -> r <> RN) ->
  let k := snd (evaluate new_classes p) in
  In (c, (x, d)) (k_presets k) <-> (x = c /\ exists b, In ((b, d), c) (k_cache k)).
Proof.
  intros p c x d HR. pose proof (evaluate_exprs p new_classes new_wf HR) as X.
  destruct (evaluate new_classes p) as [cs k]. destruct X as ((_ & _ & _ & _ & HP) & _ & _). cbn [snd]. rewrite HP, in_map_iff. split.
  - intros [[[b d'] r] [E I]]. cbn in E. inversion E; subst. split; [reflexivity | exists b; exact I].
  - intros [-> [b I]]. exists ((b, d), c). split; [reflexivity | exact I].
Qed.
Example C100_classes_ex :
  fst (evaluate new_classes [(RS, [DInt]); (RC, [DInt]); (RS, [DInt]); (RS, [DInt; DFloat]); (RS, [])]) = [3; 4; 3; 5; 0].
Proof. reflexivity. Qed.

(** ** Fields *)
(** An array as numpy has them. *)
Definition typed_ok {F} (a : tarr F) : Prop :=
  List.length (t_flat a) = fold_right Nat.mul 1 (t_shape a) /\ Forall (fun x => kind x = t_dtype a) (t_flat a).
(** Spec of the conversion of a number, as numpy documents [astype]. *)
Definition converted {F} (flt : Z -> F) (trunc : F -> Z) (nonzero : F -> bool) (d : dtype) (x y : num F) : Prop :=
  match d, x with
  | DFloat, NF f => y = NF f | DFloat, NI z => y = NF (flt z) | DFloat, NB b => y = NF (flt (if b then 1 else 0)%Z)
  | DInt, NF f => y = NI (trunc f) | DInt, NI z => y = NI z | DInt, NB b => y = NI (if b then 1 else 0)%Z
  | DBool, NF f => y = NB (nonzero f) | DBool, NB b => y = NB b
  | DBool, NI z => y = NB true /\ z <> 0%Z \/ y = NB false /\ z = 0%Z
  end.
Section S.
Variable F : Type.
Variable flt : Z -> F.
Variable trunc : F -> Z.
Variable nonzero : F -> bool.
Local Notation preset := (preset F flt trunc nonzero).
Local Notation entry := (entry F flt trunc nonzero).
Local Notation load_field := (load_field F flt trunc nonzero).
Local Notation save := (save F flt).
Local Notation assigned := (assigned F flt trunc nonzero).
Local Notation converted := (converted flt trunc nonzero).

Lemma entry_kind d x : kind (entry d x) = d.
Proof. destruct d, x; reflexivity. Qed.
Lemma entry_own d x : kind x = d -> entry d x = x.
Proof. destruct d, x; intros H; try discriminate; reflexivity. Qed.
Lemma entry_converted d x : converted d x (entry d x).
Proof.
  destruct d, x as [b|z|f]; cbn; try reflexivity; try (destruct b; reflexivity).
  destruct (Z.eqb_spec z 0); cbn; auto.
Qed.
Lemma entries_own d l : Forall (fun x => kind x = d) l -> map (entry d) l = l.
Proof. induction 1 as [|x l Hx Hl IH]; cbn; [reflexivity|]. rewrite IH, entry_own by exact Hx. reflexivity. Qed.
Lemma entries_kind d l : Forall (fun x => kind x = d) (map (entry d) l).
Proof. apply Forall_forall. intros y Hy. apply in_map_iff in Hy as [x [<- _]]. apply entry_kind. Qed.

Lemma assigned_last r l vs v : assigned r l (vs ++ [v]) = Some (preset r l v).
Proof. unfold TypedModel.assigned. rewrite fold_left_app. reflexivity. Qed.

(** Whatever is assigned to a field annotated with a typed class: an array is read as one of that class and with the last
    subscript as entry type, of the same shape, with every entry converted; anything else is read as it is. *)
Theorem C100_field_reads : forall r l d vs (a : tarr F), exists b,
  assigned r (l ++ [d]) (vs ++ [VArr a]) = Some (VArr b)
  /\ t_root b = r /\ t_subs b = l ++ [d] /\ t_dtype b = d /\ t_shape b = t_shape a
  /\ Forall2 (converted d) (t_flat a) (t_flat b) /\ Forall (fun x => kind x = d) (t_flat b).
Proof.
  intros r l d vs a. rewrite assigned_last. cbn [TypedModel.preset]. rewrite rev_app_distr. cbn [rev app].
  eexists. split; [reflexivity|]. unfold astype, tview. cbn. repeat (split; [reflexivity|]). split; [|apply entries_kind].
  induction (t_flat a) as [|x q IH]; cbn; constructor; [apply entry_converted | exact IH].
Qed.
Theorem C100_not_an_array : forall r l vs n, assigned r l (vs ++ [VOther n]) = Some (VOther n).
Proof. intros r l vs n. apply assigned_last. Qed.

Lemma preset_ok r l a b : typed_ok a -> preset r l (VArr a) = VArr b -> typed_ok b.
Proof.
  intros [H1 H2] E. cbn in E. inversion E as [E1]. unfold typed_ok. destruct (rev l) as [|d q]; cbn.
  - split; assumption.
  - rewrite map_length. split; [exact H1 | apply entries_kind].
Qed.
Lemma prod_pos sh : ~ In 0 sh -> fold_right Nat.mul 1 sh <> 0.
Proof.
  induction sh as [|n q IH]; cbn; [lia|]. intros H0 X. apply Nat.eq_mul_0 in X as [X|X]; [apply H0; left; exact X|].
  apply IH; [intros Y; apply H0; right; exact Y | exact X].
Qed.

Lemma load_typed r l d a : r <> RB -> r <> RN -> typed_ok a -> t_shape a <> [] -> t_root a = r -> t_subs a = l ++ [d] -> t_dtype a = d ->
  load_field r (l ++ [d]) (save a) = Ok (VArr a).
Proof.
  intros HB HN [Hl Hk] Hs Hr Hsub Hd. destruct a as [ra sa da sh fl]. cbn in *. subst ra sa da.
  assert (X : exists c d', array_deserialize F flt (acls_of r) (ser_arr F flt sh fl) = Ok (mkArr c d' sh fl)).
  { pose (a0 := mkArr (acls_of r) d sh fl : arr F).
    assert (O : array_ok a0) by (split; assumption).
    destruct (in_dec Nat.eq_dec 0 sh) as [I|I].
    - pose proof (C57_empty_array F flt a0 O I) as E. cbn in E. eexists; eexists; exact E.
    - pose proof (C57_array_round_trip F flt a0 O Hs I) as E. cbn in E. eexists; eexists; exact E. }
  destruct X as (c & d' & E).
  assert (SV : save (mkT r (l ++ [d]) d sh fl) = Text F r (ser_arr F flt sh fl))
    by (unfold TypedModel.save; cbn; destruct r; try reflexivity; congruence).
  rewrite SV. unfold TypedModel.load_field, load. rewrite E. cbn [bind]. unfold of_arr. cbn [a_cls a_dtype a_shape a_flat].
  cbn [TypedModel.preset]. rewrite rev_app_distr. cbn [rev app]. unfold astype, tview. cbn [t_root t_subs t_dtype t_shape t_flat].
  rewrite entries_own by exact Hk. reflexivity.
Qed.
(** A typed [sarray] or [carray] field that holds an array, empty or not, is the same after saving and loading: class, entry
    type, shape and entries. (Without the annotation an empty array is changed, C57.) *)
Theorem C100_saved_and_loaded : forall r l d vs (a b : tarr F), r <> RB -> r <> RN -> typed_ok a -> t_shape a <> [] ->
  assigned r (l ++ [d]) (vs ++ [VArr a]) = Some (VArr b) -> load_field r (l ++ [d]) (save b) = Ok (VArr b).
Proof.
  intros r l d vs a b HB HN HO Hs E. rewrite assigned_last in E.
  assert (E1 : preset r (l ++ [d]) (VArr a) = VArr b) by congruence.
  pose proof (preset_ok r (l ++ [d]) a b HO E1) as HO2. cbn [TypedModel.preset] in E1.
  rewrite rev_app_distr in E1. cbn [rev app] in E1.
  assert (Eb : b = astype F flt trunc nonzero d (tview F r (l ++ [d]) a)) by congruence.
  apply load_typed; try assumption; rewrite Eb; try reflexivity. exact Hs.
Qed.
(** With no dimensions the number goes through a float: it is the same exactly if the conversion there and back is. *)
Theorem C100_no_dimensions : forall r l d x, r <> RB -> r <> RN -> kind x = d ->
  exists y, load_field r (l ++ [d]) (save (mkT r (l ++ [d]) d [] [x])) = Ok (VArr (mkT r (l ++ [d]) d [] [y]))
  /\ match x with NF f => y = NF f | NI z => y = NI (trunc (flt z)) | NB b => y = NB (nonzero (flt (if b then 1 else 0)%Z)) end.
Proof.
  intros r l d x HB HN Hk.
  assert (SV : save (mkT r (l ++ [d]) d [] [x]) = Text F r (TNum F (NF (to_float F flt x))))
    by (unfold TypedModel.save; cbn; destruct r; try reflexivity; congruence).
  exists (entry d (NF (to_float F flt x))). split.
  - rewrite SV. unfold TypedModel.load_field, load, array_deserialize.
    destruct r; cbn [acls_of de_arr bind of_arr view]; try congruence; cbn [TypedModel.preset]; rewrite rev_app_distr; reflexivity.
  - subst d. destruct x as [b|z|f]; reflexivity.
Qed.
(** A [barray] field keeps entry type, shape and entries for every array, but comes back as plain [barray]: it is the same
    exactly if the annotation had no subscripts; assigning what was read restores the class. *)
Theorem C100_barray_loses_subscripts : forall l vs (a b : tarr F), typed_ok a ->
  assigned RB l (vs ++ [VArr a]) = Some (VArr b) ->
  exists c, load_field RB l (save b) = Ok (VArr c)
  /\ t_root c = RB /\ t_subs c = [] /\ t_dtype c = t_dtype b /\ t_shape c = t_shape b /\ t_flat c = t_flat b
  /\ (c = b <-> l = []) /\ preset RB l (VArr c) = VArr b.
Proof.
  intros l vs a b HO E. rewrite assigned_last in E.
  assert (E2 : preset RB l (VArr a) = VArr b) by congruence.
  pose proof (preset_ok RB l a b HO E2) as [O1 O2]. cbn [TypedModel.preset] in E2.
  assert (Sb : t_root b = RB /\ t_subs b = l /\ (forall d q, rev l = d :: q -> t_dtype b = d)).
  { destruct (rev l) as [|d q]; inversion E2; cbn; repeat split; intros; congruence. }
  destruct Sb as (S1 & S2 & S3). clear E E2. destruct b as [rb lb db sh fl]. cbn in *. subst rb lb.
  eexists. split; [reflexivity|]. cbn. repeat (split; [reflexivity|]). split.
  - split; [intros X; inversion X; reflexivity | intros ->; reflexivity].
  - destruct (rev l) as [|d q] eqn:R; [reflexivity|]. unfold astype, tview. cbn. rewrite (S3 d q eq_refl) in O2.
    rewrite (S3 d q eq_refl). rewrite entries_own by exact O2. reflexivity.
Qed.
End S.

Example C100_field_ex :
  let a := mkT RN [] DFloat [2] [NF 3%Z; NF 5%Z] in
  let read := preset Z (fun z => 2 * z)%Z (fun f => f / 2)%Z (fun f => negb (f =? 0)%Z) in
  read RS [DInt] (VArr a) = VArr (mkT RS [DInt] DInt [2] [NI 1%Z; NI 2%Z])
  /\ read RS [DInt] (VArr (mkT RN [] DFloat [0; 2] [])) = VArr (mkT RS [DInt] DInt [0; 2] [])
  /\ load_field Z (fun z => 2 * z)%Z (fun f => f / 2)%Z (fun f => negb (f =? 0)%Z) RS [DInt]
       (save Z (fun z => 2 * z)%Z (mkT RS [DInt] DInt [0; 2] [])) = Ok (VArr (mkT RS [DInt] DInt [0; 2] []))
  /\ load_field Z (fun z => 2 * z)%Z (fun f => f / 2)%Z (fun f => negb (f =? 0)%Z) RB [DInt]
       (save Z (fun z => 2 * z)%Z (mkT RB [DInt] DInt [1] [NI 4%Z])) = Ok (VArr (mkT RB [] DInt [1] [NI 4%Z]))
  /\ typed_ok a /\ RS <> RB /\ RS <> RN.
Proof.
  cbv zeta. repeat (split; [reflexivity|]). split; [|split; discriminate]. split; [reflexivity|]. repeat constructor.
Qed.

Print Assumptions C100_same_class_iff.
Print Assumptions C100_presets.
Print Assumptions C100_field_reads.
Print Assumptions C100_not_an_array.
Print Assumptions C100_saved_and_loaded.
Print Assumptions C100_no_dimensions.
Print Assumptions C100_barray_loses_subscripts.
