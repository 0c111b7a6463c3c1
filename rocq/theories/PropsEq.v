(** C96: what [==] between instances of a modelclass compares, and which files it reads. *)
From Coq Require Import List Bool Arith Lia.
From Verif Require Import EqModel.
Import ListNotations.

(** Spec: the fields that take part, as the documentation of the declarations says. *)
Definition takes_part (d : decl) : Prop :=
  match d with
  | ByAnnotation c | BySerializefield c => c <> Some false
  | ByRecordfield c | ByWrapfield c => c = Some true
  end.

(** Spec: class and content of what one finds in a field. *)
Definition looks (P : program) (s : slot) : nat * nat :=
  match s with
  | Loaded v => (v_cls v, v_data v)
  | Unloaded f => match p_files P f with Some p => p | None => p_failure P f end
  end.
(** Spec: two fields have the same value: the same object in memory, or equal content of a class that compares by
    content. What has to be read from a file is never the same object. *)
Definition same_value (P : program) (s t : slot) : Prop :=
  (exists v w, s = Loaded v /\ t = Loaded w /\ v_id v = v_id w) \/
  (looks P s = looks P t /\ p_by_content P (fst (looks P s)) = true).

(** Spec: instances have a slot per field, and identities in use are below the next one. *)
Definition wf (P : program) (st : state) : Prop :=
  forall x, length (i_slots (s_heap st x)) = length (p_fields P (i_cls (s_heap st x))) /\
    forall v, In (Loaded v) (i_slots (s_heap st x)) -> v_id v < s_next st.

(** Spec: the files of the fields that take part and have not been read. *)
Inductive unread : list decl -> list slot -> list nat -> Prop :=
| unread_nil : unread [] [] []
| unread_file d ds f l r : takes_part d -> unread ds l r -> unread (d :: ds) (Unloaded f :: l) (f :: r)
| unread_out d ds s l r : ~ takes_part d -> unread ds l r -> unread (d :: ds) (s :: l) r
| unread_in d ds v l r : unread ds l r -> unread (d :: ds) (Loaded v :: l) r.

Lemma compared_iff d : compared d = true <-> takes_part d.
Proof. destruct d as [[[]|]|[[]|]|[[]|]|[[]|]]; cbn; split; intro H; try reflexivity; try discriminate; try congruence; now elim H. Qed.
Lemma compared_no d : compared d = false -> ~ takes_part d.
Proof. rewrite <- compared_iff. congruence. Qed.

Fixpoint csel (ds : list decl) (l : list slot) : list slot :=
  match ds, l with d :: ds, s :: l => if compared d then s :: csel ds l else csel ds l | _, _ => [] end.

Definition got (P : program) (n n' : nat) (s : slot) (v : value) : Prop :=
  match s with
  | Loaded w => v = w
  | Unloaded _ => n <= v_id v < n' /\ (v_cls v, v_data v) = looks P s
  end.
(** What reading does to a slot. *)
Definition after (P : program) (n n' : nat) (s s' : slot) : Prop :=
  s' = s \/ exists f v, s = Unloaded f /\ s' = Loaded v /\ p_files P f = Some (v_cls v, v_data v) /\ n <= v_id v < n'.

Lemma got_mono P n n' m m' s v : got P n n' s v -> m <= n -> n' <= m' -> got P m m' s v.
Proof. destruct s; cbn; [auto|]. intros [H1 H2] A B. split; [lia|exact H2]. Qed.
Lemma after_mono P n n' m m' s v : after P n n' s v -> m <= n -> n' <= m' -> after P m m' s v.
Proof. intros [->|(f & w & A & B & C & D)] H1 H2; [now left|]. right. exists f, w. repeat split; auto; lia. Qed.

Lemma Forall2_weaken {A B} (R S : A -> B -> Prop) : (forall a b, R a b -> S a b) -> forall l m, Forall2 R l m -> Forall2 S l m.
Proof. intros H l m F. induction F; constructor; auto. Qed.

Lemma gather_spec P : forall ds l n vs l' n' r,
  length l = length ds -> gather P n ds l = (vs, l', n', r) ->
  n <= n' /\ unread ds l r /\ Forall2 (got P n n') (csel ds l) vs /\ Forall2 (after P n n') l l'.
Proof.
  induction ds as [|d ds IH]; intros l n vs l' n' r L E; destruct l as [|s l]; try discriminate; cbn in E.
  { inversion E; subst. repeat split; auto; constructor. }
  injection L as L.
  cbn [csel]. destruct (compared d) eqn:Cd.
  - destruct (get P n s) as [[[v s1] n1] r1] eqn:G.
    destruct (gather P n1 ds l) as [[[vs2 l2] n2] r2] eqn:G2.
    injection E as <- <- <- <-. destruct (IH _ _ _ _ _ _ L G2) as (A & B & C & D).
    apply compared_iff in Cd.
    assert (Hs : n <= n1 /\ unread (d :: ds) (s :: l) (r1 ++ r2) /\ got P n n1 s v /\ after P n n1 s s1).
    { destruct s as [w|f]; cbn in G.
      - inversion G; subst. split; [lia|]. split; [now constructor|]. split; [reflexivity|now left].
      - unfold got, after. cbn [looks]. destruct (p_files P f) as [[c e]|] eqn:F; inversion G; subst; cbn.
        + split; [lia|]. split; [now constructor|]. split; [split; [lia|reflexivity]|]. right. exists f, (mkV n c e). cbn. repeat split; auto; lia.
        + split; [lia|]. split; [now constructor|]. split; [split; [lia|now destruct (p_failure P f)]|now left]. }
    destruct Hs as (S1 & S2 & S3 & S4). repeat split; [lia|exact S2| |].
    + constructor; [eapply got_mono; eauto|]. eapply Forall2_weaken; [|exact C]. intros a b Hab. eapply got_mono; eauto.
    + constructor; [eapply after_mono; eauto|]. eapply Forall2_weaken; [|exact D]. intros a b Hab. eapply after_mono; eauto.
  - destruct (gather P n ds l) as [[[vs2 l2] n2] r2] eqn:G2.
    injection E as <- <- <- <-. destruct (IH _ _ _ _ _ _ L G2) as (A & B & C & D).
    repeat split; auto; [apply unread_out; auto using compared_no|constructor; [now left|exact D]].
Qed.

Lemma item_eq_iff P a b : item_eq P a b = true <->
  v_id a = v_id b \/ ((v_cls a, v_data a) = (v_cls b, v_data b) /\ p_by_content P (v_cls a) = true).
Proof.
  unfold item_eq. rewrite orb_true_iff, !andb_true_iff, !Nat.eqb_eq. split.
  - intros [H|[[H1 H2] H3]]; [now left|right; split; [congruence|exact H1]].
  - intros [H|[H1 H2]]; [now left|right]. injection H1 as H1 H3. tauto.
Qed.

(** Identities of two slots that were filled by readings in separate ranges. *)
Lemma item_same P n n1 n2 s t v w :
  got P n n1 s v -> got P n1 n2 t w -> n <= n1 ->
  (forall a, s = Loaded a -> v_id a < n) -> (forall a, t = Loaded a -> v_id a < n) ->
  (item_eq P v w = true <-> same_value P s t).
Proof.
  intros Gs Gt N Bs Bt. rewrite item_eq_iff. unfold same_value.
  assert (Es : looks P s = (v_cls v, v_data v)) by (destruct s; cbn in Gs; [now subst|symmetry; apply Gs]).
  assert (Et : looks P t = (v_cls w, v_data w)) by (destruct t; cbn in Gt; [now subst|symmetry; apply Gt]).
  rewrite Es, Et. cbn [fst].
  assert (I : v_id v = v_id w <-> exists a b, s = Loaded a /\ t = Loaded b /\ v_id a = v_id b).
  { split.
    - intros H. destruct s as [a|f]; cbn in Gs; destruct t as [b|g]; cbn in Gt; subst.
      + eauto.
      + specialize (Bs _ eq_refl). lia.
      + specialize (Bt _ eq_refl). lia.
      + lia.
    - intros (a & b & -> & -> & H). cbn in Gs, Gt. now subst. }
  rewrite I. tauto.
Qed.

Lemma list_same P n n1 n2 : n <= n1 -> forall cs vs ct ws,
  Forall2 (got P n n1) cs vs -> Forall2 (got P n1 n2) ct ws -> length cs = length ct ->
  (forall a, In (Loaded a) cs -> v_id a < n) -> (forall a, In (Loaded a) ct -> v_id a < n) ->
  (list_eq P vs ws = true <-> Forall2 (same_value P) cs ct).
Proof.
  intros N. induction cs as [|s cs IH]; intros vs ct ws F1 F2 L B1 B2; inversion F1; subst;
    destruct ct as [|t ct]; try discriminate; inversion F2; subst; cbn [list_eq].
  - split; constructor.
  - rewrite andb_true_iff.
    erewrite (item_same P n n1 n2 s t); eauto;
      [|intros a ->; apply B1; now left|intros a ->; apply B2; now left].
    erewrite (IH _ ct); eauto; [|intros a H; apply B1; now right|intros a H; apply B2; now right].
    split; [intros [A B]; now constructor|]. intros H. inversion H; subst. now split.
Qed.

Lemma csel_in ds : forall l s, In s (csel ds l) -> In s l.
Proof.
  induction ds as [|d ds IH]; intros [|t l] s H; cbn in H; try easy.
  destruct (compared d); [destruct H as [->|H]; [now left|]|]; right; auto.
Qed.
Lemma csel_length ds : forall l1 l2, length l1 = length ds -> length l2 = length ds -> length (csel ds l1) = length (csel ds l2).
Proof.
  induction ds as [|d ds IH]; intros [|t l] [|u k] A B; try discriminate; [reflexivity|]. cbn.
  destruct (compared d); cbn; auto.
Qed.
Lemma csel_nth P ds : forall l1 l2, length l1 = length ds -> length l2 = length ds ->
  (Forall2 (same_value P) (csel ds l1) (csel ds l2) <->
   forall k d s t, nth_error ds k = Some d -> nth_error l1 k = Some s -> nth_error l2 k = Some t -> takes_part d -> same_value P s t).
Proof.
  induction ds as [|d ds IH]; intros [|s l1] [|t l2] A B; try discriminate; cbn [csel].
  - split; [|constructor]. intros _ [|k] d s t H; discriminate.
  - injection A as A. injection B as B. specialize (IH _ _ A B). destruct (compared d) eqn:C.
    + split.
      * intros F. inversion F as [|? ? ? ? F1 F2]; subst. intros [|k] d' s' t' H1 H2 H3 T; cbn in *; [congruence|]. eapply (proj1 IH); eauto.
      * intros F. constructor; [apply (F 0 d); auto; now apply compared_iff|]. apply (proj2 IH). intros k d' s' t' H1 H2 H3. apply (F (S k) d'); auto.
    + rewrite IH. split.
      * intros F [|k] d' s' t' H1 H2 H3 T; cbn in *; [|eauto]. injection H1 as <-. now apply compared_no in C.
      * intros F k d' s' t' H1 H2 H3. apply (F (S k) d'); auto.
Qed.

Lemma gather_twice P : forall ds l n vs l1 n1 r1 m ws l2 n2 r2,
  length l = length ds -> gather P n ds l = (vs, l1, n1, r1) -> n1 <= m -> gather P m ds l1 = (ws, l2, n2, r2) ->
  (list_eq P vs ws = true <->
   forall k d f, nth_error ds k = Some d -> takes_part d -> nth_error l k = Some (Unloaded f) -> p_files P f = None ->
     p_by_content P (fst (p_failure P f)) = true).
Proof.
  induction ds as [|d ds IH]; intros l n vs l1 n1 r1 m ws l2 n2 r2 L G1 M G2; destruct l as [|s l]; try discriminate.
  { cbn in G1. injection G1 as <- <- <- <-. cbn in G2. injection G2 as <- <- <- <-. split; [|reflexivity]. intros _ [|k] d f H; discriminate. }
  injection L as L. cbn [gather] in G1. destruct (compared d) eqn:C.
  - destruct (get P n s) as [[[v s1] n'] r'] eqn:E1. destruct (gather P n' ds l) as [[[vs' l1'] n1'] r1'] eqn:E2.
    injection G1 as <- <- <- <-. cbn [gather] in G2. rewrite C in G2.
    destruct (get P m s1) as [[[w s2] m'] q'] eqn:E3. destruct (gather P m' ds l1') as [[[ws' l2'] n2'] r2'] eqn:E4.
    injection G2 as <- <- <- <-.
    assert (B1 : n' <= n1') by (apply (gather_spec P _ _ _ _ _ _ _ L) in E2; tauto).
    assert (B2 : m <= m').
    { destruct s1; cbn in E3; [inversion E3; lia|]. destruct (p_files P file) as [[]|]; inversion E3; lia. }
    cbn [list_eq]. rewrite andb_true_iff. rewrite (IH _ _ _ _ _ _ m' _ _ _ _ L E2 ltac:(lia) E4).
    assert (I : item_eq P v w = true <-> (forall f, s = Unloaded f -> p_files P f = None -> p_by_content P (fst (p_failure P f)) = true)).
    { rewrite item_eq_iff. destruct s as [a|f]; cbn in E1.
      - inversion E1; subst. cbn in E3. inversion E3; subst. split; [|now left]. intros _ f H. discriminate.
      - destruct (p_files P f) as [[c e]|] eqn:F; inversion E1; subst.
        + cbn in E3. inversion E3; subst. split; [|now left]. intros _ g [= <-] H. congruence.
        + cbn in E3. rewrite F in E3. inversion E3; subst. cbn. split.
          * intros [H|[_ H]]; [lia|]. now intros g [= <-] _.
          * intros H. right. split; [reflexivity|now apply H]. }
    rewrite I. apply compared_iff in C. split.
    + intros [H1 H2] [|k] d' f A B D; cbn in A, D; [injection D as ->; auto|eauto].
    + intros H. split; [intros f -> ; apply (H 0 d f); auto|]. intros k d' f A B D. apply (H (S k) d'); auto.
  - destruct (gather P n ds l) as [[[vs' l1'] n1'] r1'] eqn:E2. injection G1 as <- <- <- <-. cbn [gather] in G2. rewrite C in G2.
    destruct (gather P m ds l1') as [[[ws' l2'] n2'] r2'] eqn:E4. injection G2 as <- <- <- <-.
    rewrite (IH _ _ _ _ _ _ m _ _ _ _ L E2 M E4). apply compared_no in C. split.
    + intros H [|k] d' f A B D; cbn in A, D; [injection A as <-; contradiction|eauto].
    + intros H k d' f A B D. apply (H (S k) d'); auto.
Qed.

Section Props.
Variable P : program.

(** Different instances of one class are equal exactly if all fields that take part have the same value. *)
Theorem C96_equal_iff : forall st x y, wf P st -> x <> y -> i_cls (s_heap st x) = i_cls (s_heap st y) ->
  (fst (eq P st x y) = true <->
   forall k d s t, nth_error (p_fields P (i_cls (s_heap st x))) k = Some d ->
     nth_error (i_slots (s_heap st x)) k = Some s -> nth_error (i_slots (s_heap st y)) k = Some t ->
     takes_part d -> same_value P s t).
Proof.
  intros st x y W N C. unfold eq. rewrite C, Nat.eqb_refl. unfold tuple_of.
  destruct (W x) as [Lx Bx]. destruct (W y) as [Ly By]. rewrite C in *.
  destruct (gather P (s_next st) (p_fields P (i_cls (s_heap st y))) (i_slots (s_heap st x))) as [[[vs l] n1] r] eqn:G1.
  cbn [s_heap s_next].
  replace (y =? x) with false by (symmetry; apply Nat.eqb_neq; congruence).
  destruct (gather P n1 (p_fields P (i_cls (s_heap st y))) (i_slots (s_heap st y))) as [[[ws l2] n2] r2] eqn:G2.
  cbn [fst]. apply gather_spec in G1; [|exact Lx]. apply gather_spec in G2; [|exact Ly].
  destruct G1 as (A1 & _ & F1 & _), G2 as (A2 & _ & F2 & _).
  rewrite (list_same P _ _ _ A1 _ _ _ _ F1 F2); [apply csel_nth; auto|now apply csel_length| |]; intros a H; apply csel_in in H; auto.
Qed.

(** Instances of different classes are not equal, and nothing is read. *)
Theorem C96_other_class : forall st x y, i_cls (s_heap st x) <> i_cls (s_heap st y) -> eq P st x y = (false, st).
Proof.
  intros st x y H. unfold eq. apply Nat.eqb_neq in H as H'. rewrite H'. f_equal. apply Nat.eqb_neq. congruence.
Qed.

(** Which files are read, whatever the answer: those of all fields that take part and have not been read, first of the
    left, then of the right instance. *)
Theorem C96_files_read : forall st x y r s, wf P st -> x <> y -> i_cls (s_heap st x) = i_cls (s_heap st y) ->
  unread (p_fields P (i_cls (s_heap st x))) (i_slots (s_heap st x)) r ->
  unread (p_fields P (i_cls (s_heap st y))) (i_slots (s_heap st y)) s ->
  s_read (snd (eq P st x y)) = s_read st ++ r ++ s.
Proof.
  assert (U : forall ds l r, unread ds l r -> forall s, unread ds l s -> r = s).
  { induction 1; intros s' H'; inversion H'; subst; try contradiction; auto; f_equal; auto. }
  intros st x y r s W N C Ur Us. unfold eq. rewrite C, Nat.eqb_refl. unfold tuple_of.
  destruct (W x) as [Lx Bx]. destruct (W y) as [Ly By]. rewrite C in *.
  destruct (gather P (s_next st) (p_fields P (i_cls (s_heap st y))) (i_slots (s_heap st x))) as [[[vs l] n1] r1] eqn:G1.
  cbn [s_heap s_next s_read].
  replace (y =? x) with false by (symmetry; apply Nat.eqb_neq; congruence).
  destruct (gather P n1 (p_fields P (i_cls (s_heap st y))) (i_slots (s_heap st y))) as [[[ws l2] n2] r2] eqn:G2.
  cbn [snd s_read]. apply gather_spec in G1; [|exact Lx]. apply gather_spec in G2; [|exact Ly].
  destruct G1 as (_ & U1 & _), G2 as (_ & U2 & _).
  rewrite (U _ _ _ Ur _ U1), (U _ _ _ Us _ U2). now rewrite app_assoc.
Qed.

(** Fields declared with [recordfield] play no part unless asked for: two states that agree on all other fields give the
    same answer. *)
Theorem C96_recordfields_ignored : forall st st2 x y, wf P st -> wf P st2 -> x <> y ->
  i_cls (s_heap st x) = i_cls (s_heap st y) ->
  (forall z, z = x \/ z = y -> i_cls (s_heap st2 z) = i_cls (s_heap st z) /\
    forall k d, nth_error (p_fields P (i_cls (s_heap st z))) k = Some d -> d <> ByRecordfield None -> d <> ByRecordfield (Some false) ->
      nth_error (i_slots (s_heap st2 z)) k = nth_error (i_slots (s_heap st z)) k) ->
  fst (eq P st x y) = fst (eq P st2 x y).
Proof.
  intros st st2 x y W W2 N C A. destruct (A x (or_introl eq_refl)) as [Cx Sx]. destruct (A y (or_intror eq_refl)) as [Cy Sy].
  apply eq_true_iff_eq. rewrite (C96_equal_iff st x y W N C).
  rewrite (C96_equal_iff st2 x y W2 N) by congruence. rewrite Cx. rewrite <- C in Sy.
  split; intros H k d s t H1 H2 H3 T; apply (H k d); auto;
    (assert (d <> ByRecordfield None) by (intros ->; cbn in T; congruence));
    (assert (d <> ByRecordfield (Some false)) by (intros ->; cbn in T; congruence));
    first [rewrite <- (Sx k d) by auto; assumption|rewrite (Sx k d) by auto; assumption
          |rewrite <- (Sy k d) by auto; assumption|rewrite (Sy k d) by auto; assumption].
Qed.

(** A copy whose file has yet to be read is never equal if the field takes part, as annotated fields of storable types do,
    and the class of what is stored compares by identity. *)
Theorem C96_unread_by_identity : forall st x y k d s f, wf P st -> x <> y ->
  i_cls (s_heap st x) = i_cls (s_heap st y) ->
  nth_error (p_fields P (i_cls (s_heap st x))) k = Some d -> takes_part d ->
  nth_error (i_slots (s_heap st x)) k = Some s -> nth_error (i_slots (s_heap st y)) k = Some (Unloaded f) ->
  p_by_content P (fst (looks P (Unloaded f))) = false ->
  fst (eq P st x y) = false.
Proof.
  intros st x y k d s f W N C D T Sx Sy B. apply not_true_is_false. rewrite (C96_equal_iff _ _ _ W N C). intros H.
  destruct (H _ _ _ _ D Sx Sy T) as [(v & w & _ & E & _)|[E F]]; [discriminate|congruence].
Qed.

(** An instance is equal to itself unless a field that takes part cannot be read and failures do not compare by content. *)
Theorem C96_itself : forall st x, wf P st ->
  (fst (eq P st x x) = true <->
   forall k d f, nth_error (p_fields P (i_cls (s_heap st x))) k = Some d -> takes_part d ->
     nth_error (i_slots (s_heap st x)) k = Some (Unloaded f) -> p_files P f = None ->
     p_by_content P (fst (p_failure P f)) = true).
Proof.
  intros st x W. unfold eq. rewrite Nat.eqb_refl. unfold tuple_of. destruct (W x) as [L B].
  destruct (gather P (s_next st) (p_fields P (i_cls (s_heap st x))) (i_slots (s_heap st x))) as [[[vs l1] n1] r1] eqn:G1.
  cbn [s_heap s_next]. rewrite Nat.eqb_refl. cbn [i_cls i_slots].
  destruct (gather P n1 (p_fields P (i_cls (s_heap st x))) l1) as [[[ws l2] n2] r2] eqn:G2. cbn [fst].
  exact (gather_twice P _ _ _ _ _ _ _ _ _ _ _ _ L G1 (le_n _) G2).
Qed.

(** The comparison keeps the state in order and shows nothing new: every field of every instance looks as before, and what
    was in memory is there still. *)
Theorem C96_keeps_values : forall st x y, wf P st ->
  wf P (snd (eq P st x y)) /\
    forall z k s, nth_error (i_slots (s_heap st z)) k = Some s ->
    exists t, nth_error (i_slots (s_heap (snd (eq P st x y)) z)) k = Some t /\ looks P t = looks P s /\
    forall v, s = Loaded v -> t = s.
Proof.
  assert (K : forall st x, wf P st -> wf P (snd (tuple_of P st x)) /\
    forall z k s, nth_error (i_slots (s_heap st z)) k = Some s ->
      exists t, nth_error (i_slots (s_heap (snd (tuple_of P st x)) z)) k = Some t /\ looks P t = looks P s /\
    forall v, s = Loaded v -> t = s).
  { intros st x W. unfold tuple_of. destruct (W x) as [L B].
    destruct (gather P (s_next st) (p_fields P (i_cls (s_heap st x))) (i_slots (s_heap st x))) as [[[vs l] n] r] eqn:G.
    apply (gather_spec P _ _ _ _ _ _ _ L) in G as (A & _ & _ & F). cbn [snd]. split.
    - intros z. cbn [s_heap s_next]. destruct (z =? x) eqn:E.
      + cbn [i_slots i_cls]. split.
        * rewrite <- L. clear - F. induction F; cbn; congruence.
        * intros v Hv. clear L. induction F as [|s t l1 l2 Hst F IH]; [destruct Hv|]. destruct Hv as [->|Hv].
          -- destruct Hst as [H|(f & w & _ & H & _ & I)]; [|injection H as ->; lia].
             rewrite <- H in B. specialize (B _ (or_introl eq_refl)). lia.
          -- apply IH; [|exact Hv]. intros w Hw. apply B. now right.
      + destruct (W z) as [L1 B1]. split; [exact L1|]. intros v Hv. specialize (B1 _ Hv). lia.
    - intros z k s Hs. cbn [s_heap]. destruct (z =? x) eqn:E; [|eauto]. apply Nat.eqb_eq in E as ->. cbn [i_slots].
      clear L B. revert k Hs. induction F as [|a b l1 l2 Hab F IH]; intros [|k] Hs; cbn in Hs |- *; try discriminate; [|eauto].
      injection Hs as ->. exists b. split; [reflexivity|]. destruct Hab as [->|(f & w & -> & -> & I & _)]; [split; auto|].
      split; [cbn; now rewrite I|]. intros v H. discriminate. }
  intros st x y W. unfold eq. destruct (_ =? _); [|cbn [snd]; split; [exact W|eauto]].
  destruct (tuple_of P st x) as [a st1] eqn:E1. destruct (tuple_of P st1 y) as [b st2] eqn:E2. cbn [snd].
  destruct (K st x W) as [W1 K1]. rewrite E1 in W1, K1. cbn [snd] in W1, K1.
  destruct (K st1 y W1) as [W2 K2]. rewrite E2 in W2, K2. cbn [snd] in W2, K2. split; [exact W2|].
  intros z k s Hs. destruct (K1 _ _ _ Hs) as (t & Ht & At & Bt). destruct (K2 _ _ _ Ht) as (u & Hu & Au & Bu).
  exists u. split; [exact Hu|]. split; [congruence|]. intros v Hv. specialize (Bt _ Hv). subst t. eauto.
Qed.
End Props.

(** A class with an annotated field of a storable type that compares by identity, a [recordfield] and a number.  Instance 0
    was made by the program, instance 1 was loaded, instance 2 differs from 0 only in the [recordfield]. *)
Definition ex_prog : program :=
  mkProg (fun _ => [ByAnnotation None; ByRecordfield None; BySerializefield None]) (fun c => c =? 1)
         (fun f => if f =? 7 then Some (2, 5) else if f =? 8 then Some (2, 6) else None) (fun f => (1, f)).
Definition ex_state : state :=
  mkState (fun x => match x with
                    | 0 => mkInst 0 [Loaded (mkV 0 2 5); Loaded (mkV 1 2 6); Loaded (mkV 2 1 9)]
                    | 1 => mkInst 0 [Unloaded 7; Unloaded 8; Loaded (mkV 3 1 9)]
                    | 2 => mkInst 0 [Loaded (mkV 0 2 5); Unloaded 9; Loaded (mkV 4 1 9)]
                    | _ => mkInst 0 [Unloaded 9; Unloaded 9; Loaded (mkV 3 1 9)]
                    end) 5 [].
Example C96_example_wf : wf ex_prog ex_state.
Proof. intros [|[|[|x]]]; split; try reflexivity; intros v H; cbn in H |- *; repeat (destruct H as [H|H]; [try discriminate; injection H as <-; cbn; lia|]); destruct H. Qed.
Example C96_example :
  (* a loaded copy is not equal, though file 7 has the same content *)
  fst (eq ex_prog ex_state 0 1) = false /\ s_read (snd (eq ex_prog ex_state 0 1)) = [7] /\
  (* a missing file in the recordfield is not noticed *)
  fst (eq ex_prog ex_state 0 2) = true /\ s_read (snd (eq ex_prog ex_state 0 2)) = [] /\
  (* an unreadable field is read twice and equal to itself *)
  fst (eq ex_prog ex_state 3 3) = true /\ s_read (snd (eq ex_prog ex_state 3 3)) = [9; 9].
Proof. repeat split. Qed.
Example C96_example_unread : unread (p_fields ex_prog 0) (i_slots (s_heap ex_state 1)) [7].
Proof. cbn. constructor; [cbn; congruence|]. apply unread_out; [cbn; congruence|]. apply unread_in. constructor. Qed.

Print Assumptions C96_equal_iff.
Print Assumptions C96_other_class.
Print Assumptions C96_files_read.
Print Assumptions C96_recordfields_ignored.
Print Assumptions C96_unread_by_identity.
Print Assumptions C96_itself.
Print Assumptions C96_keeps_values.
