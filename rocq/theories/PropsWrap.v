(** C90: under which name and through which conversion the fields of modelclasses are stored, in any hierarchy. *)
From Coq Require Import Ascii String List Bool Arith Lia.
From Verif Require Import Base PosixModel WrapModel.
Import ListNotations.

Local Arguments str_eq_dec : simpl never.

(** ** Specification *)
(** The declaration that the field [x] of class [c] comes from: the nearest one, from [c] upwards. *)
Inductive origin (prog : list classdef) : nat -> str -> nat -> decl -> Prop :=
| origin_own c k x ty d dflt : nth_error prog c = Some k -> In (x, (ty, d, dflt)) (d_own k) -> origin prog c x ty d
| origin_up c k p x ty d : nth_error prog c = Some k -> ~ In x (map fst (d_own k)) -> d_parent k = Some p ->
    origin prog p x ty d -> origin prog c x ty d.
(** No name is declared twice in the body of a class. *)
Definition well_formed (prog : list classdef) : Prop := forall k, In k prog -> NoDup (map fst (d_own k)).
Definition serialized (d : decl) : bool := match d with Serialized _ _ => true | _ => false end.
(** The directory a stored field goes to if none is given. *)
Definition default_subdir (o : opts) (x : str) : str := if o_cluster o then join2 (o_subdir o) x else o_subdir o.
(** The stem a stored field gets if none is given. *)
Definition default_stem (o : opts) (x : str) : option str := if o_by_field o then Some x else None.
(** A record of which everything is left to the decorator. *)
Definition default_record (T : types) (o : opts) (x : str) (ty : nat) : descr :=
  DRec (default_stem o x) None (Some (default_subdir o x)) false (t_preset T ty).
(** What the parent does. *)
Definition above (s : state) (k : classdef) (x : str) : option descr :=
  match d_parent k with Some p => through s p x | None => None end.

(** ** Proof *)
(** Dicts *)
Lemma dget_dset {A} x y (v : A) l : dget y (dset x v l) = if str_eq_dec x y then Some v else dget y l.
Proof.
  induction l as [|[z w] l IH]; simpl; [reflexivity|].
  destruct (str_eq_dec z x) as [->|N]; simpl.
  - destruct (str_eq_dec x y); reflexivity.
  - rewrite IH. destruct (str_eq_dec z y) as [->|]; [destruct (str_eq_dec x y); congruence|reflexivity].
Qed.
Lemma dset_keys {A} x y (v : A) l : In y (map fst (dset x v l)) <-> y = x \/ In y (map fst l).
Proof.
  induction l as [|[z w] l IH]; simpl; [intuition|].
  destruct (str_eq_dec z x) as [->|N]; simpl; [intuition|rewrite IH; intuition].
Qed.
Lemma dset_nodup {A} x (v : A) l : NoDup (map fst l) -> NoDup (map fst (dset x v l)).
Proof.
  induction l as [|[z w] l IH]; simpl; intros H; [repeat constructor; simpl; tauto|].
  inversion H as [|? ? N D]; subst. destruct (str_eq_dec z x) as [->|E]; simpl; [constructor; assumption|].
  constructor; [rewrite dset_keys; intros [->|I]; [congruence|contradiction]|apply IH, D].
Qed.
Lemma dget_in {A} x (v : A) l : NoDup (map fst l) -> (dget x l = Some v <-> In (x, v) l).
Proof.
  induction l as [|[z w] l IH]; simpl; intros H; [split; [discriminate|tauto]|].
  inversion H as [|? ? N D]; subst. destruct (str_eq_dec z x) as [->|E].
  - split; [intros [= ->]; left; reflexivity|intros [[= ->]|I]; [reflexivity|]].
    exfalso; apply N. apply (in_map fst) in I; exact I.
  - rewrite (IH D). split; [right; assumption|intros [[= -> ->]|I]; [congruence|exact I]].
Qed.
Lemma dget_none {A} x (l : list (str * A)) : dget x l = None <-> ~ In x (map fst l).
Proof.
  induction l as [|[z w] l IH]; simpl; [tauto|]. destruct (str_eq_dec z x) as [->|E]; [split; [discriminate|tauto]|].
  rewrite IH. intuition.
Qed.
Lemma fold_dset_get {A} (e l : list (str * A)) x : NoDup (map fst e) ->
  dget x (fold_left (fun l e => dset (fst e) (snd e) l) e l) = match dget x e with Some v => Some v | None => dget x l end.
Proof.
  revert l. induction e as [|[y v] e IH]; simpl; intros l H; [reflexivity|].
  inversion H as [|? ? N D]; subst. rewrite (IH _ D), dget_dset.
  destruct (str_eq_dec y x) as [->|E]; [|reflexivity].
  assert (Z : dget x e = None) by (apply dget_none; exact N). rewrite Z; reflexivity.
Qed.
Lemma fold_dset_nodup {A} (e l : list (str * A)) : NoDup (map fst l) ->
  NoDup (map fst (fold_left (fun l e => dset (fst e) (snd e) l) e l)).
Proof. revert l. induction e as [|[y v] e IH]; simpl; intros l H; [exact H|apply IH, dset_nodup, H]. Qed.

(** Heaps *)
Lemma upd_nth {A} (l : list A) i j a : nth_error (upd l i a) j =
  if Nat.eq_dec i j then match nth_error l j with Some _ => Some a | None => None end else nth_error l j.
Proof.
  revert i j; induction l as [|b l IH]; intros [|i] [|j]; simpl; try reflexivity.
  - destruct (Nat.eq_dec i j); reflexivity.
  - rewrite IH. destruct (Nat.eq_dec i j), (Nat.eq_dec (S i) (S j)); try reflexivity; lia.
Qed.
Lemma set_meta_nth h i m j : nth_error (set_meta h i m) j =
  if Nat.eq_dec i j then match nth_error h j with Some f => Some (mkFld (f_name f) (f_ty f) m) | None => None end else nth_error h j.
Proof.
  unfold set_meta. destruct (nth_error h i) as [f|] eqn:E.
  - rewrite upd_nth. destruct (Nat.eq_dec i j) as [->|]; [rewrite E|]; reflexivity.
  - destruct (Nat.eq_dec i j) as [->|]; [rewrite E|]; reflexivity.
Qed.
Lemma set_meta_length h i m : length (set_meta h i m) = length h.
Proof.
  unfold set_meta. destruct (nth_error h i); [|reflexivity].
  generalize (mkFld (f_name f) (f_ty f) m). clear. revert i; induction h as [|b h IH]; intros [|i] a; simpl; auto.
Qed.

(** The two loops, field by field *)
Lemma convert_all_length T o fs h h1 : convert_all T o fs h = Ok h1 -> length h1 = length h.
Proof.
  revert h; induction fs as [|[x i] fs IH]; simpl; intros h H; [injection H as <-; reflexivity|].
  destruct (nth_error h i) as [f|] eqn:E; [|discriminate].
  destruct (convert T o f) as [m|]; simpl in H; [|discriminate]. rewrite (IH _ H). apply set_meta_length.
Qed.
Lemma convert_all_spec T o fs h h1 : NoDup (map snd fs) -> convert_all T o fs h = Ok h1 ->
  (forall x i, In (x, i) fs -> exists f m, nth_error h i = Some f /\ convert T o f = Ok m /\
     nth_error h1 i = Some (mkFld (f_name f) (f_ty f) m)) /\
  (forall i, ~ In i (map snd fs) -> nth_error h1 i = nth_error h i).
Proof.
  revert h; induction fs as [|[x i] fs IH]; simpl; intros h D H.
  { injection H as <-. split; [tauto|reflexivity]. }
  inversion D as [|? ? N D']; subst.
  destruct (nth_error h i) as [f|] eqn:E; [|discriminate].
  destruct (convert T o f) as [m|] eqn:C; simpl in H; [|discriminate].
  destruct (IH _ D' H) as [A B]. split.
  - intros y j [[= <- <-]|I].
    + exists f, m. repeat split; try assumption. rewrite (B i N), set_meta_nth, E.
      destruct (Nat.eq_dec i i); [reflexivity|congruence].
    + destruct (A y j I) as (g & m' & F1 & F2 & F3). exists g, m'. repeat split; try assumption.
      rewrite set_meta_nth in F1. destruct (Nat.eq_dec i j) as [->|]; [|exact F1].
      exfalso; apply N. apply (in_map snd) in I; exact I.
  - intros j J. rewrite B; [|tauto]. rewrite set_meta_nth. destruct (Nat.eq_dec i j); [tauto|reflexivity].
Qed.
Lemma convert_all_exn T o fs h e : NoDup (map snd fs) -> (forall x i, In (x, i) fs -> exists f, nth_error h i = Some f) ->
  convert_all T o fs h = Exn e -> exists x i f, In (x, i) fs /\ nth_error h i = Some f /\ convert T o f = Exn e.
Proof.
  revert h; induction fs as [|[x i] fs IH]; simpl; intros h D P H; [discriminate|].
  inversion D as [|? ? N D']; subst.
  destruct (P x i (or_introl eq_refl)) as [f E]; rewrite E in H.
  destruct (convert T o f) as [m|e'] eqn:C; simpl in H.
  - assert (P' : forall y j, In (y, j) fs -> exists g, nth_error (set_meta h i m) j = Some g).
    { intros y j I. destruct (P y j (or_intror I)) as [g G]. rewrite set_meta_nth, G. destruct (Nat.eq_dec i j); eauto. }
    destruct (IH _ D' P' H) as (y & j & g & I & F & G).
    exists y, j, g. split; [right; exact I|]. split; [|exact G].
    rewrite set_meta_nth in F. destruct (Nat.eq_dec i j) as [->|]; [|exact F].
    exfalso; apply N. apply (in_map snd) in I; exact I.
  - injection H as <-. exists x, i, f. auto.
Qed.
Lemma convert_all_fails T o fs h x i f e : NoDup (map snd fs) -> In (x, i) fs -> nth_error h i = Some f ->
  convert T o f = Exn e -> exists e', convert_all T o fs h = Exn e'.
Proof.
  intros D I F C. destruct (convert_all T o fs h) as [h1|e'] eqn:E; [|eauto].
  destruct (convert_all_spec _ _ _ _ _ D E) as [A _]. destruct (A x i I) as (g & m & G & G' & _). congruence.
Qed.

Definition laid (m : meta) : meta := match m with MMap (Some _) _ (Some b) => b | MMap (Some _) _ None => MNone | m => m end.
Definition carried (m : meta) : option descr := match m with MMap d _ _ => d | MNone => None end.
Lemma wrap_all_length fs h at_ h2 at2 : wrap_all fs h at_ = (h2, at2) -> length h2 = length h.
Proof.
  revert h at_; induction fs as [|[x i] fs IH]; simpl; intros h at_ H; [injection H as <- <-; reflexivity|].
  destruct (nth_error h i) as [[y ty [|[d|] s b]]|]; try (apply (IH _ _ H)).
  rewrite (IH _ _ H). apply set_meta_length.
Qed.
Lemma wrap_all_spec fs h at_ h2 at2 : NoDup (map snd fs) -> NoDup (map fst fs) ->
  (forall x i, In (x, i) fs -> exists f, nth_error h i = Some f /\ f_name f = x) ->
  wrap_all fs h at_ = (h2, at2) ->
  (forall x i f, In (x, i) fs -> nth_error h i = Some f ->
     nth_error h2 i = Some (mkFld (f_name f) (f_ty f) (laid (f_meta f))) /\
     dget x at2 = match carried (f_meta f) with Some d => Some (Some d) | None => dget x at_ end) /\
  (forall i, ~ In i (map snd fs) -> nth_error h2 i = nth_error h i) /\
  (forall x, ~ In x (map fst fs) -> dget x at2 = dget x at_).
Proof.
  revert h at_; induction fs as [|[x i] fs IH]; simpl; intros h at_ D1 D2 P H.
  { injection H as <- <-. repeat split; try tauto. }
  inversion D1 as [|? ? N1 D1']; subst. inversion D2 as [|? ? N2 D2']; subst.
  destruct (P x i (or_introl eq_refl)) as ([y ty m] & E & Ey); simpl in Ey; subst y. rewrite E in H.
  set (h' := match carried m with Some _ => set_meta h i (laid m) | None => h end).
  set (at' := match carried m with Some d => dset x (Some d) at_ | None => at_ end).
  assert (H' : wrap_all fs h' at' = (h2, at2)).
  { unfold h', at'. destruct m as [|[d|] s [b|]]; simpl in *; exact H. }
  assert (Q : forall j, j <> i -> nth_error h' j = nth_error h j).
  { intros j J. unfold h'. destruct (carried m); [|reflexivity]. rewrite set_meta_nth. destruct (Nat.eq_dec i j); [congruence|reflexivity]. }
  assert (Qi : nth_error h' i = Some (mkFld x ty (laid m))).
  { unfold h'. destruct (carried m) eqn:C; [rewrite set_meta_nth, E; destruct (Nat.eq_dec i i); [reflexivity|congruence]|].
    rewrite E. destruct m as [|[d|] s b]; simpl in *; try reflexivity; discriminate. }
  assert (J : forall z j, In (z, j) fs -> j <> i).
  { intros z j I ->. apply N1. apply (in_map snd) in I; exact I. }
  destruct (IH h' at' D1' D2') as (A & B & C); [| exact H' |].
  { intros z j I. rewrite (Q j (J z j I)). apply P; right; exact I. }
  assert (Z : forall z, z <> x -> dget z at' = dget z at_).
  { intros z M. unfold at'. destruct (carried m); [|reflexivity]. rewrite dget_dset. destruct (str_eq_dec x z); [congruence|reflexivity]. }
  split; [|split].
  - intros z j f [[= <- <-]|I] F.
    + rewrite E in F; injection F as <-; simpl. split.
      * rewrite (B i N1). exact Qi.
      * rewrite (C x N2). unfold at'. destruct (carried m); [|reflexivity]. rewrite dget_dset. destruct (str_eq_dec x x); congruence.
    + rewrite <- (Q j (J z j I)) in F. destruct (A z j f I F) as [A1 A2]. split; [exact A1|]. rewrite A2.
      destruct (carried (f_meta f)); [reflexivity|]. apply Z. intros ->. apply N2. apply (in_map fst) in I; exact I.
  - intros j M. rewrite B; [|tauto]. apply Q. intros ->; tauto.
  - intros z M. rewrite C; [|tauto]. apply Z. intros ->; tauto.
Qed.

(** One field: as declared, and as inherited *)
Section Types.
Variable T : types.

Definition own_descr (o : opts) (x : str) (ty : nat) (d : decl) : option descr :=
  match d with
  | Wrapped (DRec st su sd pl p) _ =>
      Some (DRec (or_else st (default_stem o x)) su (Some (match sd with Some v => v | None => default_subdir o x end)) pl
                 (or_else p (t_preset T ty)))
  | Wrapped (DConv p) _ => Some (DConv (or_else p (t_preset T ty)))
  | Wrapped (DCustom n) _ => Some (DCustom n)
  | Serialized p _ => match or_else p (t_preset T ty) with Some q => Some (DConv (Some q)) | None => None end
  | Plain => if t_storable T ty then Some (default_record T o x ty)
             else match t_preset T ty with Some q => Some (DConv (Some q)) | None => None end
  end.
Definition inherited_descr (o : opts) (x : str) (ty : nat) (d : decl) : option descr :=
  if negb (serialized d) && t_storable T ty then Some (default_record T o x ty)
  else match t_preset T ty with Some q => Some (DConv (Some q)) | None => None end.
(** Deriving fails. *)
Definition blocked (ty : nat) (d : decl) : Prop :=
  (exists w, d = Wrapped w false) /\ t_storable T ty = false /\ t_preset T ty <> None.

Definition ser_mark (md : option meta) : meta := MMap None true md.
Definition rests (ty : nat) (d : decl) (m : meta) : Prop :=
  match d with
  | Serialized _ md => m = ser_mark (user_md md)
  | Plain => m = if t_storable T ty then no_keys else match t_preset T ty with Some _ => ser_mark None | None => no_keys end
  | Wrapped _ false => m = MNone
  | Wrapped _ true => m = no_keys \/ (m = ser_mark None /\ t_storable T ty = false /\ t_preset T ty <> None)
  end.

Lemma convert_own o x ty d : exists m, convert T o (mkFld x ty (meta_of d)) = Ok m /\
  carried m = own_descr o x ty d /\ rests ty d (laid m).
Proof.
  destruct d as [|[st su sd pl p|p|n] [|]|[p|] md]; unfold convert, own_descr, rests; simpl.
  - destruct (t_storable T ty) eqn:S; [eexists; repeat split|]. destruct (t_preset T ty); eexists; repeat split.
  - eexists; repeat split; [destruct st, sd; reflexivity|left; reflexivity].
  - eexists; repeat split. destruct st, sd; reflexivity.
  - eexists; repeat split. left; reflexivity.
  - eexists; repeat split.
  - eexists; repeat split. left; reflexivity.
  - eexists; repeat split.
  - eexists; repeat split.
  - destruct (t_preset T ty); eexists; repeat split.
Qed.
Lemma convert_inherited o x ty d m : rests ty d m ->
  (blocked ty d -> convert T o (mkFld x ty m) = Exn AttributeError) /\
  (~ blocked ty d -> exists m', convert T o (mkFld x ty m) = Ok m') /\
  (forall m', convert T o (mkFld x ty m) = Ok m' -> carried m' = inherited_descr o x ty d /\ rests ty d (laid m')).
Proof.
  unfold blocked, inherited_descr, convert.
  destruct d as [|w [|]|p md]; simpl; intros R.
  - subst m. destruct (t_storable T ty) eqn:S; [|destruct (t_preset T ty) eqn:P]; simpl.
    all: split; [intros ([w W] & _); discriminate|]; split; [eauto|]; intros m' [= <-]; split; reflexivity.
  - destruct R as [->|(-> & S & P)]; simpl.
    + destruct (t_storable T ty) eqn:S; [|destruct (t_preset T ty) eqn:P]; simpl.
      all: split; [intros ([w' W] & _); discriminate|]; split; [eauto|]; intros m' [= <-]; split; try reflexivity; auto.
      right; repeat split; congruence.
    + rewrite S. destruct (t_preset T ty) eqn:P'; [|congruence]. simpl.
      split; [intros ([w' W] & _); discriminate|]; split; [eauto|]; intros m' [= <-]; split; [reflexivity|right; repeat split; congruence].
  - subst m. destruct (t_storable T ty) eqn:S; [|destruct (t_preset T ty) eqn:P]; simpl.
    + split; [intros (_ & Z & _); discriminate|]; split; [eauto|]; intros m' [= <-]; split; reflexivity.
    + split; [reflexivity|]. split; [intros N; exfalso; apply N; repeat split; eauto; discriminate|discriminate].
    + split; [intros (_ & _ & Z); congruence|]. split; [eauto|]. intros m' [= <-]; split; reflexivity.
  - subst m. simpl. destruct (t_preset T ty) eqn:P; simpl.
    all: split; [intros ([w W] & _); discriminate|]; split; [eauto|]; intros m' [= <-]; split; reflexivity.
Qed.

(** Declarations found by looking upwards *)
Lemma origin_mono prog more c x ty d : origin prog c x ty d -> origin (prog ++ more) c x ty d.
Proof.
  induction 1 as [c k x ty d dflt H I|c k p x ty d H N P _ IH].
  - eapply origin_own; [|exact I]. rewrite nth_error_app1; [exact H|apply nth_error_Some; congruence].
  - eapply origin_up; try eassumption. rewrite nth_error_app1; [exact H|apply nth_error_Some; congruence].
Qed.
Definition parents_before (prog : list classdef) : Prop :=
  forall c k p, nth_error prog c = Some k -> d_parent k = Some p -> p < c.
Lemma origin_back prog more c x ty d : parents_before prog -> origin (prog ++ more) c x ty d -> c < length prog -> origin prog c x ty d.
Proof.
  intros W. induction 1 as [c k x ty d dflt H I|c k p x ty d H N P _ IH]; intros L; rewrite nth_error_app1 in H by exact L.
  - eapply origin_own; eassumption.
  - eapply origin_up; try eassumption. apply IH. specialize (W _ _ _ H P). lia.
Qed.
Lemma in_fst {A B} (x : A) (y : B) l : In (x, y) l -> In x (map fst l).
Proof. intros I. apply (in_map fst) in I; exact I. Qed.
Lemma nodup_fun {A B} (l : list (A * B)) x y z : NoDup (map fst l) -> In (x, y) l -> In (x, z) l -> y = z.
Proof.
  induction l as [|[a b] l IH]; simpl; intros H I J; [contradiction|]. inversion H as [|? ? N D]; subst.
  destruct I as [I|I], J as [J|J]; try (injection I as -> ->); try (injection J as -> ->); try congruence;
    try (exfalso; apply N; eapply in_fst; eassumption).
  eapply IH; eassumption.
Qed.
Lemma origin_fun prog c x ty d ty' d' : well_formed prog -> origin prog c x ty d -> origin prog c x ty' d' -> ty = ty' /\ d = d'.
Proof.
  intros W H. revert ty' d'. induction H as [c k x ty d dflt H I|c k p x ty d H N P _ IH]; intros ty' d' H'.
  - inversion H' as [? k' ? ? ? dflt' Hk I'|? k' p' ? ? ? Hk N' P' O']; subst; assert (k' = k) by congruence; subst k'.
    + assert (E := nodup_fun _ _ _ _ (W k (nth_error_In _ _ H)) I I'). split; congruence.
    + exfalso; apply N'. eapply in_fst; exact I.
  - inversion H' as [? k' ? ? ? dflt' Hk I'|? k' p' ? ? ? Hk N' P' O']; subst; assert (k' = k) by congruence; subst k'.
    + exfalso; apply N. eapply in_fst; exact I'.
    + apply IH. congruence.
Qed.
Lemma origin_dec prog c x : parents_before prog -> (exists ty d, origin prog c x ty d) \/ ~ (exists ty d, origin prog c x ty d).
Proof.
  intros W. induction c as [c IH] using (well_founded_induction lt_wf).
  destruct (nth_error prog c) as [k|] eqn:E.
  2:{ right. intros (ty & d & H). inversion H; congruence. }
  destruct (in_dec str_eq_dec x (map fst (d_own k))) as [I|N].
  { apply in_map_iff in I as ([y [[ty d] b]] & Ey & I). simpl in Ey; subst y. left. exists ty, d. eapply origin_own; eassumption. }
  destruct (d_parent k) as [p|] eqn:P.
  - destruct (IH p (W _ _ _ E P)) as [(ty & d & H)|H].
    + left. exists ty, d. eapply origin_up; eassumption.
    + right. intros (ty & d & O). apply H. inversion O as [? k' ? ? ? ? Hk I|? k' p' ? ? ? Hk N' P' O']; subst.
      * exfalso; apply N. replace k with k' by congruence. eapply in_fst; exact I.
      * exists ty, d. replace p with p' by congruence. exact O'.
  - right. intros (ty & d & O). inversion O as [? k' ? ? ? ? Hk I|? k' p' ? ? ? Hk N' P' O']; subst.
    + apply N. replace k with k' by congruence. eapply in_fst; exact I.
    + congruence.
Qed.

(** The invariant *)
Definition field_ok (prog : list classdef) (h : list fld) (c : nat) (e : str * nat) : Prop :=
  exists f d, nth_error h (snd e) = Some f /\ f_name f = fst e /\ origin prog c (fst e) (f_ty f) d /\ rests (f_ty f) d (f_meta f).
Definition attrs_ok (prog : list classdef) (k : classdef) (at_ : list (str * option descr)) : Prop :=
  (forall x ty d dflt, In (x, (ty, d, dflt)) (d_own k) -> dget x at_ =
     match own_descr (d_opts k) x ty d with Some a => Some (Some a) | None => if dflt then Some None else None end) /\
  (forall x ty d p, ~ In x (map fst (d_own k)) -> d_parent k = Some p -> origin prog p x ty d ->
     ~ blocked ty d /\ dget x at_ = match inherited_descr (d_opts k) x ty d with Some a => Some (Some a) | None => None end) /\
  (forall x, ~ In x (map fst (d_own k)) -> (forall p, d_parent k = Some p -> ~ exists ty d, origin prog p x ty d) -> dget x at_ = None).
Definition class_ok (prog : list classdef) (h : list fld) (c : nat) (k : classdef) (kc : cls) : Prop :=
  k_parent kc = d_parent k /\ NoDup (map fst (k_fields kc)) /\
  (forall e, In e (k_fields kc) -> field_ok prog h c e) /\
  (forall x ty d, origin prog c x ty d -> In x (map fst (k_fields kc))) /\
  attrs_ok prog k (k_attrs kc).
Definition Inv (prog : list classdef) (s : state) : Prop :=
  length (s_classes s) = length prog /\ parents_before prog /\
  forall c k kc, nth_error prog c = Some k -> nth_error (s_classes s) c = Some kc -> class_ok prog (s_fields s) c k kc.

Lemma own_fields_names b l : map fst (own_fields b l) = map fst l.
Proof. revert b; induction l as [|[x e] l IH]; intros b; simpl; [reflexivity|f_equal; apply IH]. Qed.
Lemma own_fields_in b l x i : In (x, i) (own_fields b l) -> exists j e, i = b + j /\ nth_error l j = Some (x, e).
Proof.
  revert b; induction l as [|[y e] l IH]; intros b; simpl; [tauto|]. intros [[= <- <-]|I].
  - exists 0, e. split; [lia|reflexivity].
  - destruct (IH _ I) as (j & e' & -> & H). exists (S j), e'. split; [lia|exact H].
Qed.
Lemma own_attrs_get l x : NoDup (map fst l) -> dget x (own_attrs l) =
  match dget x l with Some (_, true) => Some None | _ => None end.
Proof.
  induction l as [|[y [[ty d] b]] l IH]; intros H; [reflexivity|]. inversion H as [|? ? N D]; subst. simpl.
  destruct b; simpl; destruct (str_eq_dec y x) as [->|E]; try reflexivity; try (apply IH; exact D).
  rewrite (IH D). assert (Z : dget x l = None) by (apply dget_none; exact N). rewrite Z; reflexivity.
Qed.

Lemma ids_nodup (h : list fld) (fs : list (str * nat)) : NoDup (map fst fs) ->
  (forall x i, In (x, i) fs -> exists f, nth_error h i = Some f /\ f_name f = x) -> NoDup (map snd fs).
Proof.
  induction fs as [|[x i] fs IH]; simpl; intros D P; [constructor|]. inversion D as [|? ? N D']; subst.
  constructor; [|apply IH; auto]. intros I. apply in_map_iff in I as ([y j] & E & I). simpl in E; subst j.
  destruct (P x i (or_introl eq_refl)) as (f & F & <-). destruct (P y i (or_intror I)) as (g & G & <-).
  apply N. replace f with g by congruence. eapply in_fst; exact I.
Qed.

(** The fields of a class that is being defined: the own ones and those of the parent. *)
Definition all_fields (s : state) (k : classdef) (inherited : list (str * nat)) : list (str * nat) :=
  fold_left (fun l e => dset (fst e) (snd e) l) (own_fields (length (s_fields s)) (d_own k)) inherited.
Definition heap_of (s : state) (k : classdef) : list fld := s_fields s ++ map new_field (d_own k).
Lemma all_fields_spec s k inh x i : NoDup (map fst (d_own k)) -> NoDup (map fst inh) ->
  (forall x i, In (x, i) inh -> i < length (s_fields s)) -> In (x, i) (all_fields s k inh) ->
  (exists ty d b, In (x, (ty, d, b)) (d_own k) /\ nth_error (heap_of s k) i = Some (mkFld x ty (meta_of d)) /\ length (s_fields s) <= i) \/
  (~ In x (map fst (d_own k)) /\ In (x, i) inh /\ i < length (s_fields s) /\ nth_error (heap_of s k) i = nth_error (s_fields s) i).
Proof.
  intros D1 D2 B I. unfold all_fields in I.
  assert (D := fold_dset_nodup (own_fields (length (s_fields s)) (d_own k)) inh D2).
  apply (dget_in x i _ D) in I. rewrite fold_dset_get in I by (rewrite own_fields_names; exact D1).
  destruct (dget x (own_fields (length (s_fields s)) (d_own k))) as [j|] eqn:E.
  - injection I as ->. left.
    apply dget_in in E; [|rewrite own_fields_names; exact D1].
    destruct (own_fields_in _ _ _ _ E) as (j & [[ty d] b] & -> & H).
    exists ty, d, b. split; [eapply nth_error_In; exact H|]. split; [|lia].
    unfold heap_of. rewrite nth_error_app2 by lia. replace (length (s_fields s) + j - length (s_fields s)) with j by lia.
    rewrite nth_error_map, H. reflexivity.
  - right. apply dget_none in E. rewrite own_fields_names in E. apply (dget_in x i _ D2) in I.
    split; [exact E|]. split; [exact I|]. split; [apply (B _ _ I)|]. unfold heap_of. rewrite nth_error_app1; [reflexivity|apply (B _ _ I)].
Qed.
Lemma all_fields_names s k inh x : NoDup (map fst (d_own k)) -> NoDup (map fst inh) ->
  (In x (map fst (all_fields s k inh)) <-> In x (map fst (d_own k)) \/ In x (map fst inh)).
Proof.
  intros D1 D2. unfold all_fields.
  assert (G := fold_dset_get (own_fields (length (s_fields s)) (d_own k)) inh x).
  rewrite own_fields_names in G. specialize (G D1).
  assert (O := @dget_none nat x (own_fields (length (s_fields s)) (d_own k))). rewrite own_fields_names in O.
  assert (H := @dget_none nat x inh).
  assert (R := @dget_none nat x (fold_left (fun l e => dset (fst e) (snd e) l) (own_fields (length (s_fields s)) (d_own k)) inh)).
  destruct (in_dec str_eq_dec x (map fst (d_own k))) as [I|N]; destruct (in_dec str_eq_dec x (map fst inh)) as [J|M];
    destruct (in_dec str_eq_dec x (map fst (fold_left (fun l e => dset (fst e) (snd e) l) (own_fields (length (s_fields s)) (d_own k)) inh))) as [Q|Q];
    try tauto; exfalso.
  1,2: apply Q; clear R.
  all: destruct (dget x (own_fields (length (s_fields s)) (d_own k))) eqn:E1; destruct (dget x inh) eqn:E2;
    try (apply O in N); try (apply H in M); try tauto; try congruence.
  all: try (destruct (in_dec str_eq_dec x (map fst (fold_left (fun l e => dset (fst e) (snd e) l) (own_fields (length (s_fields s)) (d_own k)) inh))) as [Q'|Q'];
    [tauto|apply dget_none in Q'; congruence]).
  all: try (apply dget_none in Q; congruence); try (apply R in Q; congruence).
  all: try (apply dget_none in G; tauto).
Qed.

(** What is known when the class [k] is defined after [prog]. *)
Lemma parent_fields prog s k inh : well_formed (prog ++ [k]) -> Inv prog s ->
  match d_parent k with
  | None => Ok []
  | Some p => match nth_error (s_classes s) p with Some kc => Ok (k_fields kc) | None => Exn KeyError end
  end = Ok inh ->
  NoDup (map fst inh) /\ (forall p, d_parent k = Some p -> p < length prog) /\
  (forall x i, In (x, i) inh -> exists p f d, d_parent k = Some p /\ nth_error (s_fields s) i = Some f /\ f_name f = x /\
     origin prog p x (f_ty f) d /\ rests (f_ty f) d (f_meta f)) /\
  (forall p x ty d, d_parent k = Some p -> origin prog p x ty d -> In x (map fst inh)).
Proof.
  intros W (L & PB & CO) H. destruct (d_parent k) as [p|] eqn:P.
  2:{ injection H as <-. simpl. repeat split; try constructor; try tauto; try discriminate. }
  destruct (nth_error (s_classes s) p) as [kc|] eqn:E; [|discriminate]. injection H as <-.
  assert (B : p < length prog) by (rewrite <- L; apply nth_error_Some; congruence).
  destruct (nth_error prog p) as [kp|] eqn:Ek; [|apply nth_error_None in Ek; lia].
  destruct (CO _ _ _ Ek E) as (_ & N & F & O & _). split; [exact N|]. split; [intros q [= <-]; exact B|]. split.
  - intros x i I. destruct (F _ I) as (f & d & F1 & F2 & F3 & F4). exists p, f, d. auto.
  - intros q x ty d [= <-] H. apply (O _ _ _ H).
Qed.

Lemma define_step prog s k s' : well_formed (prog ++ [k]) -> Inv prog s -> define T s k = Ok s' ->
  Inv (prog ++ [k]) s' /\ exists kc, s_classes s' = s_classes s ++ [kc].
Proof.
  intros W I0 H. assert (I := I0). destruct I as (L & PB & CO). unfold define in H.
  destruct (match d_parent k with None => Ok [] | Some p => _ end) as [inh|] eqn:E in H; simpl in H; [|discriminate].
  destruct (parent_fields prog s k inh W I0 E) as (Ni & Bp & Fi & Oi). clear E.
  assert (Dk : NoDup (map fst (d_own k))) by (apply W, in_or_app; right; left; reflexivity).
  assert (Bi : forall x i, In (x, i) inh -> i < length (s_fields s)).
  { intros x i J. destruct (Fi x i J) as (p & f & d & _ & F & _). apply nth_error_Some; congruence. }
  fold (all_fields s k inh) in H. fold (heap_of s k) in H. set (fs := all_fields s k inh) in *.
  assert (Nf : NoDup (map fst fs)) by (apply fold_dset_nodup; exact Ni).
  assert (Sp := fun x i => all_fields_spec s k inh x i Dk Ni Bi). fold fs in Sp.
  assert (Hn : forall x i, In (x, i) fs -> exists f, nth_error (heap_of s k) i = Some f /\ f_name f = x).
  { intros x i J. destruct (Sp x i J) as [(ty & d & b & _ & G & _)|(_ & J' & _ & G)].
    - rewrite G; eauto.
    - destruct (Fi x i J') as (p & f & d & _ & F & Fx & _). rewrite G, F. eauto. }
  assert (Ns : NoDup (map snd fs)) by (apply (ids_nodup (heap_of s k)); assumption).
  destruct (convert_all T (d_opts k) fs (heap_of s k)) as [h1|] eqn:C; simpl in H; [|discriminate].
  destruct (convert_all_spec _ _ _ _ _ Ns C) as [C1 C2].
  destruct (wrap_all fs h1 (own_attrs (d_own k))) as [h2 at2] eqn:Wr. injection H as <-.
  assert (Hn1 : forall x i, In (x, i) fs -> exists f, nth_error h1 i = Some f /\ f_name f = x).
  { intros x i J. destruct (Hn x i J) as (f & F & Fx). destruct (C1 x i J) as (f' & m & F' & _ & F1).
    exists (mkFld (f_name f') (f_ty f') m). split; [exact F1|simpl; congruence]. }
  destruct (wrap_all_spec _ _ _ _ _ Ns Nf Hn1 Wr) as (A1 & A2 & A3).
  (* field by field *)
  assert (Own : forall x i ty d b, In (x, i) fs -> In (x, (ty, d, b)) (d_own k) ->
     exists f, nth_error h2 i = Some f /\ f_name f = x /\ f_ty f = ty /\ rests ty d (f_meta f) /\
     dget x at2 = match own_descr (d_opts k) x ty d with Some a => Some (Some a) | None => if b then Some None else None end).
  { intros x i ty d b J K. destruct (Sp x i J) as [(ty' & d' & b' & K' & G & _)|(Z & _)]; [|exfalso; apply Z; eapply in_fst; exact K].
    assert (EQ := nodup_fun _ _ _ _ Dk K' K). injection EQ as -> -> ->.
    destruct (C1 x i J) as (f & m & F & Cm & F1). rewrite G in F; injection F as <-.
    destruct (convert_own (d_opts k) x ty d) as (m' & M1 & M2 & M3). rewrite M1 in Cm; injection Cm as ->.
    destruct (A1 x i _ J F1) as [R1 R2]. simpl in *. eexists; split; [exact R1|]. simpl. repeat split; [exact M3|].
    rewrite R2, M2. destruct (own_descr (d_opts k) x ty d); [reflexivity|].
    rewrite (own_attrs_get _ _ Dk). assert (Z : dget x (d_own k) = Some (ty, d, b)) by (apply dget_in; assumption). rewrite Z. reflexivity. }
  assert (Up : forall x i f d, In (x, i) fs -> ~ In x (map fst (d_own k)) -> nth_error (s_fields s) i = Some f -> f_name f = x ->
     rests (f_ty f) d (f_meta f) -> ~ blocked (f_ty f) d /\
     exists f', nth_error h2 i = Some f' /\ f_name f' = x /\ f_ty f' = f_ty f /\ rests (f_ty f) d (f_meta f') /\
     dget x at2 = match inherited_descr (d_opts k) x (f_ty f) d with Some a => Some (Some a) | None => None end).
  { intros x i f d J NK F Fx R. destruct (Sp x i J) as [(ty' & d' & b' & K' & _)|(_ & J' & Li & G)]; [exfalso; apply NK; eapply in_fst; exact K'|].
    destruct (C1 x i J) as (f0 & m & F0 & Cm & F1). rewrite G, F in F0; injection F0 as <-.
    destruct f as [nm ty mt]; simpl in *. subst nm.
    destruct (convert_inherited (d_opts k) x ty d mt R) as (V1 & V2 & V3).
    destruct (V3 m Cm) as [V4 V5]. split; [intros Bl; rewrite (V1 Bl) in Cm; discriminate|].
    destruct (A1 x i _ J F1) as [R1 R2]. simpl in *. eexists; split; [exact R1|]. simpl. repeat split; [exact V5|].
    rewrite R2, V4. destruct (inherited_descr (d_opts k) x ty d); [reflexivity|].
    rewrite (own_attrs_get _ _ Dk). assert (Z : dget x (d_own k) = None) by (apply dget_none; exact NK). rewrite Z. reflexivity. }
  (* fields of any class defined before *)
  assert (Old : forall x i f d, nth_error (s_fields s) i = Some f -> f_name f = x -> rests (f_ty f) d (f_meta f) ->
     exists f', nth_error h2 i = Some f' /\ f_name f' = x /\ f_ty f' = f_ty f /\ rests (f_ty f) d (f_meta f')).
  { intros x i f d F Fx R. destruct (in_dec Nat.eq_dec i (map snd fs)) as [Q|Q].
    - apply in_map_iff in Q as ([y j] & Ej & Q). simpl in Ej; subst j.
      destruct (Sp y i Q) as [(ty' & d' & b' & _ & _ & Z)|(NK & _ & _ & _)].
      + exfalso. assert (i < length (s_fields s)) by (apply nth_error_Some; congruence). lia.
      + destruct (Hn y i Q) as (g & G & Gy). assert (Ly : i < length (s_fields s)) by (apply nth_error_Some; congruence).
        unfold heap_of in G. rewrite nth_error_app1 in G by exact Ly. assert (Eg : g = f) by congruence; rewrite Eg in Gy.
        rewrite <- Gy in Q, NK.
        destruct (Up (f_name f) i f d Q NK F eq_refl R) as [_ (f' & X1 & X2 & X3 & X4 & _)]. exists f'. repeat split; congruence.
    - exists f. rewrite (A2 i Q), (C2 i Q). unfold heap_of. rewrite nth_error_app1 by (apply nth_error_Some; congruence). auto. }
  assert (PB' : parents_before (prog ++ [k])).
  { intros c k' p Hc Hp. destruct (Nat.eq_dec c (length prog)) as [->|Nc].
    - rewrite nth_error_app2, Nat.sub_diag in Hc by lia. simpl in Hc. injection Hc as <-. apply Bp, Hp.
    - assert (c < length (prog ++ [k])) by (apply nth_error_Some; congruence). rewrite app_length in *; simpl in *.
      rewrite nth_error_app1 in Hc by lia. apply (PB _ _ _ Hc Hp). }
  split; [|eexists; reflexivity]. split; [simpl; rewrite !app_length, L; reflexivity|]. split; [exact PB'|].
  simpl. intros c k' kc Hk Hc. destruct (Nat.eq_dec c (length prog)) as [->|Nc].
  - rewrite nth_error_app2, Nat.sub_diag in Hk by lia. simpl in Hk. injection Hk as <-.
    rewrite nth_error_app2, L, Nat.sub_diag in Hc by lia. simpl in Hc. injection Hc as <-.
    assert (Ek : nth_error (prog ++ [k]) (length prog) = Some k) by (rewrite nth_error_app2, Nat.sub_diag by lia; reflexivity).
    unfold class_ok; simpl. split; [reflexivity|]. split; [exact Nf|]. split; [|split].
    + intros [x i] J. destruct (Sp x i J) as [(ty & d & b & K & _)|(NK & J' & _ & _)].
      * destruct (Own x i ty d b J K) as (f & X1 & X2 & X3 & X4 & _). exists f, d. simpl. repeat split; auto; rewrite X3; [|exact X4].
        eapply origin_own; eassumption.
      * destruct (Fi x i J') as (p & f & d & P & F & Fx & O & R).
        destruct (Up x i f d J NK F Fx R) as [_ (f' & X1 & X2 & X3 & X4 & _)]. exists f', d. simpl. repeat split; auto; rewrite X3; [|exact X4].
        eapply origin_up; try eassumption. apply origin_mono, O.
    + intros x ty d O. apply all_fields_names; try assumption.
      inversion O as [? k' ? ? ? ? Hk I1|? k' p ? ? ? Hk N' P' O']; subst; rewrite Ek in Hk; injection Hk as <-.
      * left. eapply in_fst; exact I1.
      * right. eapply Oi; [exact P'|]. eapply origin_back; [exact PB|exact O'|]. apply Bp, P'.
    + split; [|split].
      * intros x ty d b K. assert (Q : In x (map fst fs)) by (apply all_fields_names; auto; left; eapply in_fst; exact K).
        apply in_map_iff in Q as ([y i] & Ey & Q). simpl in Ey; subst y.
        destruct (Own x i ty d b Q K) as (f & _ & _ & _ & _ & X). exact X.
      * intros x ty d p NK P O. apply origin_back in O; [|exact PB|apply Bp, P].
        assert (Q : In x (map fst fs)) by (apply all_fields_names; auto; right; eapply Oi; eassumption).
        apply in_map_iff in Q as ([y i] & Ey & Q). simpl in Ey; subst y.
        destruct (Sp x i Q) as [(ty' & d' & b' & K' & _)|(_ & J' & _ & _)]; [exfalso; apply NK; eapply in_fst; exact K'|].
        destruct (Fi x i J') as (p' & f & d' & P' & F & Fx & O' & R). assert (p' = p) by congruence; subst p'.
        assert (Wp : well_formed prog) by (intros z Z; apply W, in_or_app; left; exact Z).
        destruct (origin_fun _ _ _ _ _ _ _ Wp O O') as [-> ->].
        destruct (Up x i f d' Q NK F Fx R) as [X0 (f' & _ & _ & _ & _ & X)]. split; [exact X0|exact X].
      * intros x NK NP. rewrite A3.
        -- rewrite (own_attrs_get _ _ Dk). assert (Z : dget x (d_own k) = None) by (apply dget_none; exact NK). rewrite Z; reflexivity.
        -- intros Q. apply all_fields_names in Q; auto. destruct Q as [Q|Q]; [contradiction|].
           apply in_map_iff in Q as ([y i] & Ey & Q). simpl in Ey; subst y.
           destruct (Fi x i Q) as (p & f & d & P & _ & _ & O & _). apply (NP p P). exists (f_ty f), d. apply origin_mono, O.
  - assert (Lc : c < length prog).
    { assert (c < length (prog ++ [k])) by (apply nth_error_Some; congruence). rewrite app_length in *; simpl in *. lia. }
    rewrite nth_error_app1 in Hk by exact Lc. rewrite nth_error_app1 in Hc by lia.
    destruct (CO _ _ _ Hk Hc) as (P & N & F & O & (At1 & At2 & At3)). unfold class_ok. split; [exact P|]. split; [exact N|]. split; [|split].
    + intros [x i] J. destruct (F _ J) as (f & d & F1 & F2 & F3 & F4). simpl in *.
      destruct (Old x i f d F1 F2 F4) as (f' & X1 & X2 & X3 & X4). exists f', d. simpl. rewrite X3. repeat split; auto. apply origin_mono, F3.
    + intros x ty d O'. apply (O x ty d). eapply origin_back; eassumption.
    + split; [exact At1|]. split.
      * intros x ty d p NK Pp Op. apply (At2 x ty d p NK Pp). eapply origin_back; [exact PB|exact Op|].
        assert (p < c) by (eapply PB; eassumption). lia.
      * intros x NK NP. apply (At3 x NK). intros p Pp (ty & d & Op). apply (NP p Pp). exists ty, d. apply origin_mono, Op.
Qed.

Lemma run_app s l1 l2 : run T s (l1 ++ l2) = do s1 <- run T s l1; run T s1 l2.
Proof. revert s; induction l1 as [|d l1 IH]; intros s; simpl; [reflexivity|]. destruct (define T s d); simpl; [apply IH|reflexivity]. Qed.
Lemma run_inv prog s : well_formed prog -> run T start prog = Ok s -> Inv prog s.
Proof.
  revert s; induction prog as [|k prog IH] using rev_ind; intros s W H.
  { simpl in H; injection H as <-. split; [reflexivity|]. split; [intros [|c] k p; discriminate|intros [|c] k kc; discriminate]. }
  rewrite run_app in H. destruct (run T start prog) as [s1|] eqn:E; simpl in H; [|discriminate].
  destruct (define T s1 k) as [s2|] eqn:D; simpl in H; [|discriminate]. injection H as <-.
  apply (define_step prog s1 k s2 W); [|exact D]. apply IH; [|reflexivity]. intros z Z. apply W, in_or_app; left; exact Z.
Qed.
Lemma run_extends more : forall prog s s', well_formed (prog ++ more) -> Inv prog s -> run T s more = Ok s' ->
  exists l, s_classes s' = s_classes s ++ l.
Proof.
  induction more as [|k more IH]; simpl; intros prog s s' W I H; [injection H as <-; exists []; rewrite app_nil_r; reflexivity|].
  destruct (define T s k) as [s1|] eqn:D; simpl in H; [|discriminate].
  replace (prog ++ k :: more) with ((prog ++ [k]) ++ more) in W by (rewrite <- app_assoc; reflexivity).
  destruct (define_step prog s k s1) as [I1 [kc E]]; try assumption.
  { intros z Z. apply W, in_or_app; left; exact Z. }
  destruct (IH _ _ _ W I1 H) as [l E']. exists (kc :: l). rewrite E', E, <- app_assoc. reflexivity.
Qed.

Lemma attr_up_enough s prog x : Inv prog s -> forall c n, c < n -> attr_up n s c x = through s c x.
Proof.
  intros (L & PB & CO). induction c as [c IH] using (well_founded_induction lt_wf). intros [|n] H; [lia|].
  unfold through; simpl. destruct (nth_error (s_classes s) c) as [kc|] eqn:E; [|reflexivity].
  destruct (dget x (k_attrs kc)); [reflexivity|]. destruct (k_parent kc) as [p|] eqn:P; [|reflexivity].
  destruct (nth_error prog c) as [k|] eqn:Ek.
  2:{ apply nth_error_None in Ek. assert (c < length (s_classes s)) by (apply nth_error_Some; congruence). lia. }
  destruct (CO _ _ _ Ek E) as (Pk & _). assert (Lp : p < c) by (apply (PB _ _ _ Ek); congruence).
  rewrite (IH p Lp n) by lia. rewrite (IH p Lp c) by lia. reflexivity.
Qed.
Lemma through_step prog s c k x : Inv prog s -> nth_error prog c = Some k ->
  exists at_, attrs_ok prog k at_ /\ through s c x = match dget x at_ with Some a => a | None => above s k x end.
Proof.
  intros I Ek. assert (I' := I). destruct I' as (L & PB & CO).
  destruct (nth_error (s_classes s) c) as [kc|] eqn:E.
  2:{ apply nth_error_None in E. assert (c < length prog) by (apply nth_error_Some; congruence). lia. }
  destruct (CO _ _ _ Ek E) as (Pk & _ & _ & _ & At). exists (k_attrs kc). split; [exact At|].
  unfold through at 1. simpl. rewrite E. destruct (dget x (k_attrs kc)); [reflexivity|]. unfold above. rewrite Pk.
  destruct (d_parent k) as [p|] eqn:P; [|reflexivity]. apply (attr_up_enough s prog x I). apply (PB _ _ _ Ek P).
Qed.
Lemma through_own prog s c k x ty d dflt : well_formed prog -> run T start prog = Ok s -> nth_error prog c = Some k ->
  In (x, (ty, d, dflt)) (d_own k) ->
  through s c x = match own_descr (d_opts k) x ty d with Some a => Some a | None => if dflt then None else above s k x end.
Proof.
  intros W R E I. destruct (through_step prog s c k x (run_inv _ _ W R) E) as (at_ & (A & _ & _) & ->).
  rewrite (A _ _ _ _ I). destruct (own_descr (d_opts k) x ty d), dflt; reflexivity.
Qed.
Lemma through_inherited prog s c k p x ty d : well_formed prog -> run T start prog = Ok s -> nth_error prog c = Some k ->
  d_parent k = Some p -> ~ In x (map fst (d_own k)) -> origin prog p x ty d ->
  through s c x = match inherited_descr (d_opts k) x ty d with Some a => Some a | None => through s p x end.
Proof.
  intros W R E P N O. destruct (through_step prog s c k x (run_inv _ _ W R) E) as (at_ & (_ & A & _) & ->).
  destruct (A _ _ _ _ N P O) as [_ ->]. unfold above; rewrite P. destruct (inherited_descr (d_opts k) x ty d); reflexivity.
Qed.

(** ** Theorems *)
(** What is written in the class that declares the field is kept; the rest is filled in from the decorator of that class. *)
Theorem C90_declared_record prog s c k x ty st su sd pl p md dflt :
  well_formed prog -> run T start prog = Ok s -> nth_error prog c = Some k ->
  In (x, (ty, Wrapped (DRec st su sd pl p) md, dflt)) (d_own k) ->
  through s c x = Some (DRec (match st with Some v => Some v | None => if o_by_field (d_opts k) then Some x else None end) su
                             (Some (match sd with Some v => v | None => default_subdir (d_opts k) x end)) pl
                             (match p with Some f => Some f | None => t_preset T ty end)).
Proof. intros W R E I. rewrite (through_own _ _ _ _ _ _ _ _ W R E I). destruct st, p; reflexivity. Qed.

(** A field without descriptor is stored in a file of its own exactly if its type is storable; otherwise the preset of
    its type is applied. If there is none either, a default shadows whatever the parents do with that name; without a
    default the field is still treated as the parents treat it. *)
Theorem C90_declared_plain prog s c k x ty dflt :
  well_formed prog -> run T start prog = Ok s -> nth_error prog c = Some k -> In (x, (ty, Plain, dflt)) (d_own k) ->
  through s c x = (if t_storable T ty then Some (default_record T (d_opts k) x ty)
                   else match t_preset T ty with
                        | Some q => Some (DConv (Some q))
                        | None => if dflt then None else above s k x
                        end).
Proof.
  intros W R E I. rewrite (through_own _ _ _ _ _ _ _ _ W R E I). simpl.
  destruct (t_storable T ty); [reflexivity|]. destruct (t_preset T ty); reflexivity.
Qed.

(** A field declared with [serializefield] is never given a file of its own by the class that declares it, whatever its type. *)
Theorem C90_declared_serialized prog s c k x ty p md dflt :
  well_formed prog -> run T start prog = Ok s -> nth_error prog c = Some k -> In (x, (ty, Serialized p md, dflt)) (d_own k) ->
  through s c x = match p with
                  | Some f => Some (DConv (Some f))
                  | None => match t_preset T ty with
                            | Some q => Some (DConv (Some q))
                            | None => if dflt then None else above s k x
                            end
                  end.
Proof.
  intros W R E I. rewrite (through_own _ _ _ _ _ _ _ _ W R E I). simpl. destruct p; simpl; [reflexivity|].
  destruct (t_preset T ty); reflexivity.
Qed.

(** A derived class decides anew on every inherited field of storable type that was not declared with [serializefield]:
    nothing of what its declaration said is left. *)
Theorem C90_inherited_decided_anew prog s c k p x ty d :
  well_formed prog -> run T start prog = Ok s -> nth_error prog c = Some k -> d_parent k = Some p ->
  ~ In x (map fst (d_own k)) -> origin prog p x ty d -> t_storable T ty = true -> serialized d = false ->
  through s c x = Some (default_record T (d_opts k) x ty).
Proof.
  intros W R E P N O S D. rewrite (through_inherited _ _ _ _ _ _ _ _ W R E P N O).
  unfold inherited_descr. rewrite S, D. reflexivity.
Qed.
(** All other inherited fields are treated as by the parent, except that a preset of the type replaces whatever there was. *)
Theorem C90_inherited_kept prog s c k p x ty d :
  well_formed prog -> run T start prog = Ok s -> nth_error prog c = Some k -> d_parent k = Some p ->
  ~ In x (map fst (d_own k)) -> origin prog p x ty d -> t_storable T ty = false \/ serialized d = true ->
  through s c x = match t_preset T ty with Some q => Some (DConv (Some q)) | None => through s p x end.
Proof.
  intros W R E P N O S. rewrite (through_inherited _ _ _ _ _ _ _ _ W R E P N O).
  unfold inherited_descr. destruct S as [-> | ->]; rewrite ?andb_false_r; simpl; destruct (t_preset T ty); reflexivity.
Qed.

(** So a derived class stores a field under another name than its parent whenever the declaration names a stem that is
    not the name of the field. *)
Theorem C90_derived_stores_elsewhere prog s c k p kp x ty v su sd pl f md dflt :
  well_formed prog -> run T start prog = Ok s -> nth_error prog c = Some k -> d_parent k = Some p ->
  ~ In x (map fst (d_own k)) -> nth_error prog p = Some kp ->
  In (x, (ty, Wrapped (DRec (Some v) su sd pl f) md, dflt)) (d_own kp) -> t_storable T ty = true -> v <> x ->
  (exists su' sd' pl' f', through s p x = Some (DRec (Some v) su' sd' pl' f')) /\
  (exists st' sd' f', through s c x = Some (DRec st' None sd' false f') /\ st' <> Some v).
Proof.
  intros W R E P N Ep I S V. split.
  - rewrite (C90_declared_record _ _ _ _ _ _ _ _ _ _ _ _ _ W R Ep I). repeat eexists.
  - rewrite (C90_inherited_decided_anew _ _ _ _ _ _ _ _ W R E P N (origin_own _ _ _ _ _ _ _ Ep I) S eq_refl).
    repeat eexists. unfold default_stem. destruct (o_by_field (d_opts k)); congruence.
Qed.

(** Classes defined later change nothing in those defined before, although they share the objects that describe the fields. *)
Theorem C90_ancestors_unaffected prog more s s' c x :
  well_formed (prog ++ more) -> run T start prog = Ok s -> run T start (prog ++ more) = Ok s' -> c < length prog ->
  through s' c x = through s c x.
Proof.
  intros W R R' H. rewrite run_app, R in R'; simpl in R'.
  assert (Wp : well_formed prog) by (intros z Z; apply W, in_or_app; left; exact Z).
  assert (I := run_inv _ _ Wp R). destruct (run_extends more prog s s' W I R') as [l L].
  destruct I as (Ls & PB & CO). unfold through. generalize (S c) as n. intros n. revert c H.
  induction n as [|n IH]; intros c H; simpl; [reflexivity|].
  rewrite L, nth_error_app1 by lia. destruct (nth_error (s_classes s) c) as [kc|] eqn:E; [|reflexivity].
  destruct (dget x (k_attrs kc)); [reflexivity|]. destruct (k_parent kc) as [p|] eqn:P; [|reflexivity]. apply IH.
  destruct (nth_error prog c) as [k|] eqn:Ek; [|apply nth_error_None in Ek; lia].
  destruct (CO _ _ _ Ek E) as (Pk & _). assert (p < c) by (apply (PB _ _ _ Ek); congruence). lia.
Qed.

(** A class cannot be derived from another exactly if it inherits a field that was declared with a descriptor and without
    metadata, whose type is not storable and has a preset. *)
Theorem C90_cannot_be_derived_iff prog s k :
  well_formed (prog ++ [k]) -> run T start prog = Ok s -> (forall p, d_parent k = Some p -> p < length prog) ->
  ((exists p x ty w, d_parent k = Some p /\ ~ In x (map fst (d_own k)) /\ origin prog p x ty (Wrapped w false) /\
      t_storable T ty = false /\ t_preset T ty <> None) <->
   define T s k = Exn AttributeError) /\
  (define T s k = Exn AttributeError \/ exists s', define T s k = Ok s').
Proof.
  intros W R B. assert (Wp : well_formed prog) by (intros z Z; apply W, in_or_app; left; exact Z).
  assert (I := run_inv _ _ Wp R).
  assert (Dk : NoDup (map fst (d_own k))) by (apply W, in_or_app; right; left; reflexivity).
  assert (G : exists inh, match d_parent k with None => Ok [] | Some p => match nth_error (s_classes s) p with Some kc => Ok (k_fields kc) | None => Exn KeyError end end = Ok inh).
  { destruct (d_parent k) as [p|]; [|eauto]. destruct I as (L & _). specialize (B p eq_refl).
    destruct (nth_error (s_classes s) p) eqn:E; [eauto|]. apply nth_error_None in E. lia. }
  destruct G as [inh G]. destruct (parent_fields prog s k inh W I G) as (Ni & Bp & Fi & Oi).
  assert (Bi : forall x i, In (x, i) inh -> i < length (s_fields s)).
  { intros x i J. destruct (Fi x i J) as (p & f & d & _ & F & _). apply nth_error_Some; congruence. }
  assert (Sp := fun x i => all_fields_spec s k inh x i Dk Ni Bi).
  assert (Hn : forall x i, In (x, i) (all_fields s k inh) -> exists f, nth_error (heap_of s k) i = Some f /\ f_name f = x).
  { intros x i J. destruct (Sp x i J) as [(ty & d & b & _ & H & _)|(_ & J' & _ & H)].
    - rewrite H; eauto.
    - destruct (Fi x i J') as (p & f & d & _ & F & Fx & _). rewrite H, F. eauto. }
  assert (Nf : NoDup (map fst (all_fields s k inh))) by (apply fold_dset_nodup; exact Ni).
  assert (Ns : NoDup (map snd (all_fields s k inh))) by (apply (ids_nodup (heap_of s k)); assumption).
  assert (X : forall e, convert_all T (d_opts k) (all_fields s k inh) (heap_of s k) = Exn e -> e = AttributeError /\
    exists p x ty w, d_parent k = Some p /\ ~ In x (map fst (d_own k)) /\ origin prog p x ty (Wrapped w false) /\
      t_storable T ty = false /\ t_preset T ty <> None).
  { intros e C. destruct (convert_all_exn _ _ _ _ _ Ns (fun x i J => let '(ex_intro _ f (conj F _)) := Hn x i J in ex_intro _ f F) C)
      as (x & i & f & J & F & Ce).
    destruct (Sp x i J) as [(ty & d & b & _ & H & _)|(N & J' & _ & H)].
    - rewrite H in F; injection F as <-. destruct (convert_own (d_opts k) x ty d) as (m & M & _). congruence.
    - rewrite H in F. destruct (Fi x i J') as (p & f' & d & P & F' & Fx & O & Rs). assert (f' = f) by congruence; subst f'.
      destruct f as [nm ty mt]; simpl in *; subst nm. destruct (convert_inherited (d_opts k) x ty d mt Rs) as (V1 & V2 & _).
      destruct d as [|w [|]|pp md]; try (destruct V2 as [m M]; [intros ([w' Z] & _); discriminate|congruence]).
      assert (Bl : blocked ty (Wrapped w false)).
      { unfold blocked. destruct (t_storable T ty) eqn:S1; [destruct V2 as [m M]; [intros (_ & Z & _); congruence|congruence]|].
        destruct (t_preset T ty) eqn:S2; [|destruct V2 as [m M]; [intros (_ & _ & Z); congruence|congruence]].
        repeat split; eauto; discriminate. }
      split; [specialize (V1 Bl); congruence|]. destruct Bl as (_ & S1 & S2). exists p, x, ty, w. auto. }
  assert (Y : (exists p x ty w, d_parent k = Some p /\ ~ In x (map fst (d_own k)) /\ origin prog p x ty (Wrapped w false) /\
      t_storable T ty = false /\ t_preset T ty <> None) -> exists e, convert_all T (d_opts k) (all_fields s k inh) (heap_of s k) = Exn e).
  { intros (p & x & ty & w & P & N & O & S1 & S2).
    assert (Q : In x (map fst (all_fields s k inh))) by (apply all_fields_names; auto; right; eapply Oi; eassumption).
    apply in_map_iff in Q as ([y i] & Ey & Q). simpl in Ey; subst y.
    destruct (Sp x i Q) as [(ty' & d' & b' & K' & _)|(_ & J' & _ & H)]; [exfalso; apply N; eapply in_fst; exact K'|].
    destruct (Fi x i J') as (p' & f & d & P' & F & Fx & O' & Rs). assert (p' = p) by congruence; subst p'.
    destruct (origin_fun _ _ _ _ _ _ _ Wp O O') as [Et Ed]. subst ty d.
    destruct f as [nm ty mt]; simpl in *; subst nm. destruct (convert_inherited (d_opts k) x ty (Wrapped w false) mt Rs) as (V1 & _).
    eapply convert_all_fails; [exact Ns|exact Q|rewrite H; exact F|apply V1; repeat split; eauto]. }
  assert (Df : define T s k = match convert_all T (d_opts k) (all_fields s k inh) (heap_of s k) with
     Exn e => Exn e | Ok h1 => let '(h2, at_) := wrap_all (all_fields s k inh) h1 (own_attrs (d_own k)) in
       Ok (mkState (s_classes s ++ [mkCls (d_parent k) (all_fields s k inh) at_]) h2) end).
  { unfold define. rewrite G. simpl. fold (all_fields s k inh). fold (heap_of s k).
    destruct (convert_all T (d_opts k) (all_fields s k inh) (heap_of s k)); reflexivity. }
  destruct (convert_all T (d_opts k) (all_fields s k inh) (heap_of s k)) as [h1|e] eqn:C; rewrite Df; clear Df.
  - destruct (wrap_all (all_fields s k inh) h1 (own_attrs (d_own k))) as [h2 at2]. split; [|right; eauto].
    split; [intros H; destruct (Y H); discriminate|discriminate].
  - destruct (X e eq_refl) as [-> Z]. split; [|left; reflexivity]. split; [reflexivity|intros _; exact Z].
Qed.
End Types.

(** ** Examples *)
(** Type 0 is storable, type 1 has the preset 7, type 2 is neither. A class with an explicit record, a plain storable field
    and a record of plain type; a class derived from it and one derived from that in a clustered directory. *)
Definition some_types : types := mkTypes (Nat.eqb 0) (fun ty => if Nat.eqb ty 1 then Some 7 else None).
Definition base_def : classdef := mkDef None (mkOpts true false []) [
  ($"data", (0, Wrapped (DRec (Some $"samples") (Some $".npy") None true None) false, false));
  ($"inner", (0, Plain, false));
  ($"raw", (2, Wrapped (DRec (Some $"raw-data") None None false (Some 3)) false, false));
  ($"kept", (0, Serialized None false, false));
  ($"array", (1, Plain, false))].
Definition derived_def : classdef := mkDef (Some 0) (mkOpts true true $"sub") [($"raw", (2, Plain, false)); ($"n", (2, Plain, true))].
Definition leaf_def : classdef := mkDef (Some 1) (mkOpts false false []) [($"inner", (2, Plain, true))].
Definition hierarchy : list classdef := [base_def; derived_def; leaf_def].
Example hierarchy_well_formed : well_formed hierarchy.
Proof. intros k [<-|[<-|[<-|[]]]]; repeat constructor; simpl; intuition discriminate. Qed.
Definition defined : state := match run some_types start hierarchy with Ok s => s | Exn _ => start end.
Example hierarchy_defined : run some_types start hierarchy = Ok defined.
Proof. vm_compute. reflexivity. Qed.
Example data_of_base : through defined 0 $"data" = Some (DRec (Some $"samples") (Some $".npy") (Some []) true None).
Proof. vm_compute. reflexivity. Qed.
Example data_of_derived : through defined 1 $"data" = Some (DRec (Some $"data") None (Some $"sub/data") false None).
Proof. vm_compute. reflexivity. Qed.
Example data_of_leaf : through defined 2 $"data" = Some (DRec None None (Some []) false None).
Proof. vm_compute. reflexivity. Qed.
(** Declared anew without a default the field is still the record of the parent; with one it is not. *)
Example raw_of_derived : through defined 1 $"raw" = Some (DRec (Some $"raw-data") None (Some []) false (Some 3)).
Proof. vm_compute. reflexivity. Qed.
Example inner_of_leaf : through defined 2 $"inner" = None.
Proof. vm_compute. reflexivity. Qed.
Example kept_of_derived : through defined 1 $"kept" = None /\ through defined 1 $"array" = Some (DConv (Some 7)).
Proof. vm_compute. split; reflexivity. Qed.
Example derived_data_elsewhere :
  (exists su' sd' pl' f', through defined 0 $"data" = Some (DRec (Some $"samples") su' sd' pl' f')) /\
  (exists st' sd' f', through defined 1 $"data" = Some (DRec st' None sd' false f') /\ st' <> Some $"samples").
Proof.
  refine (C90_derived_stores_elsewhere some_types hierarchy defined 1 derived_def 0 base_def $"data" 0 $"samples" _ _ _ _ _ _
            hierarchy_well_formed hierarchy_defined eq_refl eq_refl _ eq_refl (or_introl eq_refl) eq_refl _);
    [simpl; intuition discriminate|discriminate].
Qed.
(** A record field of a type that has a preset and is not storable: the class is defined, none can be derived. *)
Definition preset_def : classdef := mkDef None (mkOpts true false []) [($"a", (1, Wrapped (DRec None None None false None) false, false))].
Example preset_defined : exists s, run some_types start [preset_def] = Ok s /\ through s 0 $"a" = Some (DRec (Some $"a") None (Some []) false (Some 7)) /\
  define some_types s (mkDef (Some 0) (mkOpts true false []) []) = Exn AttributeError.
Proof. exists (match run some_types start [preset_def] with Ok s => s | Exn _ => start end). vm_compute. repeat split. Qed.

Print Assumptions C90_declared_record.
Print Assumptions C90_declared_plain.
Print Assumptions C90_declared_serialized.
Print Assumptions C90_inherited_decided_anew.
Print Assumptions C90_inherited_kept.
Print Assumptions C90_derived_stores_elsewhere.
Print Assumptions C90_ancestors_unaffected.
Print Assumptions C90_cannot_be_derived_iff.
