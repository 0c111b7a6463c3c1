(** Lemmas about targets, names and registration. *)
From Coq Require Import List Ascii String Bool Arith NArith Lia DecimalString DecimalN FinFun.
From Verif Require Import Base PosixModel FsModel PathModel PathSpec PosixProof.
Import ListNotations.

(** ** Merge *)
Lemma merge_app t a b : merge t (a ++ b) = merge (merge t a) b.
Proof. revert t. induction a as [|x a IH]; intros t; [reflexivity|]. apply IH. Qed.

Lemma merge2_assoc a b c : merge2 (merge2 a b) c = merge2 a (merge2 b c).
Proof.
  destruct a as [a1 a2 a3], b as [b1 b2 b3], c as [c1 c2 c3].
  unfold merge2, merge_part; cbn. destruct c1, c2, c3; reflexivity.
Qed.

(** ** from_path *)
Lemma from_path_fspath p : exists q, fspath (from_path p) = Ok q /\ normpath q = normpath p.
Proof.
  unfold from_path. pose proof (path_split_join p) as H.
  destruct (path_split p) as [sd n]. cbn in H. pose proof (splitext_app n) as H2.
  destruct (splitext n) as [st su]. cbn in *. exists (join2 sd (st ++ su)).
  split; [reflexivity|]. rewrite H2. exact H.
Qed.

Lemma t_key_fspath t p : fspath t = Ok p -> t_key t = inl (normpath p).
Proof. unfold t_key. intros ->. reflexivity. Qed.

Lemma teq_iff a b : teq a b = true <-> t_key a = t_key b.
Proof. unfold teq. destruct (key_eq_dec _ _); split; congruence. Qed.
Lemma teq_false a b : teq a b = false <-> t_key a <> t_key b.
Proof. unfold teq. destruct (key_eq_dec _ _); split; congruence. Qed.
Lemma teq_refl a : teq a a = true.
Proof. apply teq_iff; reflexivity. Qed.

Lemma in_touched_iff t l : in_touched t l = true <-> exists u, In u l /\ t_key u = t_key t.
Proof.
  unfold in_touched. rewrite existsb_exists. split; intros (u & H1 & H2); exists u.
  - apply teq_iff in H2. auto.
  - split; [assumption|]. apply teq_iff. congruence.
Qed.
Lemma in_touched_false t l : in_touched t l = false <-> (forall u, In u l -> t_key u <> t_key t).
Proof.
  destruct (in_touched t l) eqn:E.
  - split; [discriminate|]. intros H. apply in_touched_iff in E as (u & H1 & H2).
    exfalso. eapply H; eauto.
  - split; [|reflexivity]. intros _ u Hu Hk.
    assert (in_touched t l = true) by (apply in_touched_iff; eauto). congruence.
Qed.

(** ** Digits *)
Definition digits (s : str) : Prop := Forall (fun c => is_digit c = true) s.

Lemma is_digit_code c : is_digit c = true <-> 48 <= code c <= 57.
Proof. unfold is_digit. rewrite andb_true_iff, !Nat.leb_le. reflexivity. Qed.

Lemma digit_not_sep c : is_digit c = true -> c <> sep.
Proof. intros H ->. discriminate. Qed.
Lemma digit_not_dot c : is_digit c = true -> c <> dot_c.
Proof. intros H ->. discriminate. Qed.

Lemma string_of_uint_digits u :
  digits (list_ascii_of_string (NilEmpty.string_of_uint u)).
Proof. induction u; cbn; constructor; (reflexivity || assumption). Qed.

Lemma uint_of_string_of_uint u :
  uint_of_digits (list_ascii_of_string (NilEmpty.string_of_uint u)) = u.
Proof. induction u as [|u IH|u IH|u IH|u IH|u IH|u IH|u IH|u IH|u IH|u IH]; cbn; try rewrite IH; reflexivity. Qed.

Lemma str_of_N_digits n : digits (str_of_N n).
Proof. apply string_of_uint_digits. Qed.

Lemma int_str_of_N n : int_of_digits (str_of_N n) = n.
Proof.
  unfold int_of_digits, str_of_N. rewrite uint_of_string_of_uint. apply DecimalN.Unsigned.of_to.
Qed.

Lemma str_of_N_nonnil n : str_of_N n <> [].
Proof.
  unfold str_of_N. destruct n as [|p]; cbn; [discriminate|].
  intros H. assert (E : Pos.to_uint p = Decimal.Nil).
  { destruct (Pos.to_uint p); cbn in H; (reflexivity || discriminate). }
  pose proof (DecimalPos.Unsigned.of_to p) as H2. rewrite E in H2. discriminate.
Qed.

Lemma str_of_N_inj a b : str_of_N a = str_of_N b -> a = b.
Proof. intros H. rewrite <- (int_str_of_N a), <- (int_str_of_N b), H. reflexivity. Qed.

(** ** strip_numbers *)
(** [del_digits s s']: [s'] is [s] with some digits left out. *)
Inductive del_digits : str -> str -> Prop :=
| dd_nil : del_digits [] []
| dd_keep c s s' : del_digits s s' -> del_digits (c :: s) (c :: s')
| dd_drop c s s' : is_digit c = true -> del_digits s s' -> del_digits (c :: s) s'.

Lemma take_digits_spec s : digits (fst (take_digits s)) /\
  fst (take_digits s) ++ snd (take_digits s) = s /\
  match snd (take_digits s) with [] => True | c :: _ => is_digit c = false end.
Proof.
  induction s as [|c r IH]; cbn; [repeat split; constructor|].
  destruct (is_digit c) eqn:E.
  - destruct (take_digits r) as [d t]. cbn in *. destruct IH as (H1 & H2 & H3).
    repeat split; [constructor; assumption|congruence|assumption].
  - cbn. repeat split; [constructor|]. assumption.
Qed.

Lemma del_digits_app d a b : digits d -> del_digits a b -> del_digits (d ++ a) b.
Proof. induction 1; cbn; intros; [assumption|]. apply dd_drop; auto. Qed.
Lemma del_digits_keep d a b : del_digits a b -> del_digits (d ++ a) (d ++ b).
Proof. induction d; cbn; intros; [assumption|]. apply dd_keep; auto. Qed.

Lemma strip_numbers_del n : forall s, List.length s <= n -> del_digits s (fst (strip_numbers n s)).
Proof.
  induction n as [|n IH]; intros s Hl.
  - destruct s; [constructor|cbn in Hl; lia].
  - destruct s as [|c r]; [constructor|]. cbn [strip_numbers].
    destruct (is_digit c) eqn:E.
    + pose proof (take_digits_spec (c :: r)) as (H1 & H2 & _).
      assert (Hne : fst (take_digits (c :: r)) <> []).
      { cbn. rewrite E. destruct (take_digits r). discriminate. }
      destruct (take_digits (c :: r)) as [d t]. cbn [fst snd] in *.
      assert (Ht : List.length t <= n).
      { apply (f_equal (@List.length ascii)) in H2. rewrite app_length in H2.
        cbn in H2, Hl. destruct d; [congruence|cbn in H2; lia]. }
      specialize (IH t Ht). destruct (strip_numbers n t) as [b ms]. cbn in IH.
      destruct (at_boundary t); cbn [fst]; rewrite <- H2.
      * apply del_digits_app; assumption.
      * apply del_digits_keep; assumption.
    + cbn in Hl. specialize (IH r ltac:(lia)). destruct (strip_numbers n r) as [b ms].
      cbn. apply dd_keep. exact IH.
Qed.

(** [settled s]: every digit run of [s] is followed by a word character that is no digit. *)
Fixpoint settled (s : str) : Prop :=
  match s with
  | [] => True
  | c :: r => (is_digit c = true -> match r with [] => False | c2 :: _ => is_word c2 = true end) /\ settled r
  end.

Lemma digit_word c : is_digit c = true -> is_word c = true.
Proof. unfold is_word. intros ->. reflexivity. Qed.

Lemma settled_digits_app d t : digits d -> settled t ->
  match t with [] => d = [] | c :: _ => is_word c = true end -> settled (d ++ t).
Proof.
  induction 1 as [|c d Hc Hd IH]; cbn; intros Ht Hw; [assumption|]. split.
  - intros _. destruct d as [|c2 d]; cbn.
    + destruct t; [discriminate|assumption].
    + inversion Hd; subst. apply digit_word; assumption.
  - apply IH; [assumption|]. destruct t; [discriminate|assumption].
Qed.

Lemma strip_numbers_settled n : forall s, List.length s <= n ->
  settled (fst (strip_numbers n s)) /\
  (match s with c :: _ => is_digit c = false -> match fst (strip_numbers n s) with c' :: _ => c' = c | [] => False end | [] => True end).
Proof.
  induction n as [|n IH]; intros s Hl.
  - destruct s; [cbn; auto|cbn in Hl; lia].
  - destruct s as [|c r]; [cbn; auto|]. cbn [strip_numbers].
    destruct (is_digit c) eqn:E.
    + pose proof (take_digits_spec (c :: r)) as (H1 & H2 & H3).
      assert (Hne : fst (take_digits (c :: r)) <> []).
      { cbn. rewrite E. destruct (take_digits r). discriminate. }
      destruct (take_digits (c :: r)) as [d t]. cbn [fst snd] in *.
      assert (Ht : List.length t <= n).
      { apply (f_equal (@List.length ascii)) in H2. rewrite app_length in H2.
        cbn in H2, Hl. destruct d; [congruence|cbn in H2; lia]. }
      destruct (IH t Ht) as [IH1 IH2]. destruct (strip_numbers n t) as [b ms]. cbn [fst] in *.
      destruct (at_boundary t) eqn:Eb; cbn [fst]; (split; [|discriminate]).
      * exact IH1.
      * destruct t as [|c2 t]; [discriminate|]. specialize (IH2 H3).
        destruct b as [|c' b]; [contradiction|]. subst c'.
        apply settled_digits_app; [assumption|assumption|].
        cbn in Eb. apply negb_false_iff in Eb. exact Eb.
    + cbn in Hl. destruct (IH r ltac:(lia)) as [IH1 _]. destruct (strip_numbers n r) as [b ms].
      cbn [fst] in *. split; [|reflexivity]. cbn. split; [congruence|exact IH1].
Qed.

Lemma settled_take_digits s : settled s ->
  at_boundary (snd (take_digits s)) = true -> fst (take_digits s) = [].
Proof.
  induction s as [|c r IH]; cbn; [reflexivity|]. intros [H1 H2].
  destruct (is_digit c) eqn:E; [|reflexivity].
  specialize (H1 eq_refl). destruct r as [|c2 r]; [contradiction|].
  cbn. intros H. cbn in IH.
  destruct (is_digit c2) eqn:E2.
  - destruct (take_digits r) as [d t]. cbn in *. rewrite E2 in H2.
    specialize (IH H2 H). discriminate.
  - cbn in H. rewrite H1 in H. discriminate.
Qed.

(** a settled base followed by digits: exactly the trailing number matches *)
Lemma settled_tail c r : settled (c :: r) -> settled r.
Proof. cbn. tauto. Qed.

Lemma take_digits_app_settled b n : settled b -> digits n -> n <> [] -> b <> [] ->
  take_digits (b ++ n) = (fst (take_digits b), snd (take_digits b) ++ n) /\
  (snd (take_digits b) <> []).
Proof.
  induction b as [|c b IH]; intros Hs Hd Hn Hb; [congruence|]. cbn [app take_digits].
  destruct (is_digit c) eqn:E; [|cbn; split; [reflexivity|discriminate]].
  destruct Hs as [H1 H2]. specialize (H1 E). destruct b as [|c2 b]; [contradiction|].
  destruct (IH H2 Hd Hn) as [E1 E2]; [discriminate|]. rewrite E1.
  destruct (take_digits (c2 :: b)) as [d t]. cbn in *. split; [reflexivity|exact E2].
Qed.

Lemma take_digits_all n : digits n -> take_digits n = (n, []).
Proof. induction 1; cbn; [reflexivity|]. rewrite H, IHForall. reflexivity. Qed.

Lemma settled_snd_take s : settled s -> settled (snd (take_digits s)).
Proof.
  induction s as [|c r IH]; cbn; [auto|]. intros [H1 H2].
  destruct (is_digit c) eqn:E.
  - destruct (take_digits r). cbn in *. auto.
  - cbn. split; [congruence|exact H2].
Qed.

Lemma strip_settled_app k : forall b n, settled b -> digits n -> n <> [] ->
  List.length (b ++ n) <= k -> strip_numbers k (b ++ n) = (b, [n]).
Proof.
  induction k as [|k IH]; intros b n Hs Hd Hn Hl.
  - destruct b; [|cbn in Hl; lia]. destruct n; [congruence|cbn in Hl; lia].
  - destruct b as [|c b].
    + cbn [app]. destruct n as [|x n]; [congruence|]. inversion Hd; subst. cbn [strip_numbers].
      rewrite H1. rewrite take_digits_all by assumption.
      destruct k; reflexivity.
    + cbn [app strip_numbers]. destruct (is_digit c) eqn:E.
      * change (c :: b ++ n) with ((c :: b) ++ n).
        destruct (take_digits_app_settled (c :: b) n Hs Hd Hn) as [E1 E2]; [discriminate|].
        rewrite E1. pose proof (take_digits_spec (c :: b)) as (T1 & T2 & T3).
        pose proof (settled_take_digits _ Hs) as Hb.
        pose proof (settled_snd_take _ Hs) as Hst.
        assert (Hd1 : fst (take_digits (c :: b)) <> []).
        { cbn. rewrite E. destruct (take_digits b). discriminate. }
        destruct (take_digits (c :: b)) as [d t]. cbn [fst snd] in *.
        rewrite IH; [|exact Hst|assumption|assumption|].
        -- destruct t as [|c2 t]; [congruence|]. cbn [app at_boundary] in *.
           destruct (negb (is_word c2)); [|rewrite T2; reflexivity].
           exfalso. apply Hd1. apply Hb. reflexivity.
        -- rewrite <- T2 in Hl. rewrite !app_length in *. destruct d; [congruence|cbn in Hl; lia].
      * rewrite IH; [reflexivity| | | |].
        -- exact (proj2 Hs).
        -- assumption.
        -- assumption.
        -- cbn in Hl. lia.
Qed.

(** base and number of the next suggestion *)
Definition base_of (stem : str) : str := fst (substitute_numbers stem).
Definition num_of (stem : str) : N :=
  match snd (substitute_numbers stem) with [] => 0%N | m :: _ => (int_of_digits m + 1)%N end.

Lemma next_stem_eq stem : next_stem stem = base_of stem ++ str_of_N (num_of stem).
Proof.
  unfold next_stem, base_of, num_of. destruct (substitute_numbers stem) as [b [|m ms]]; reflexivity.
Qed.

Lemma base_of_settled stem : settled (base_of stem).
Proof. apply strip_numbers_settled. lia. Qed.

Lemma base_of_del stem : del_digits stem (base_of stem).
Proof. apply strip_numbers_del. lia. Qed.

Lemma next_stem_next stem k :
  next_stem (base_of stem ++ str_of_N k) = base_of stem ++ str_of_N (k + 1)%N.
Proof.
  unfold next_stem, substitute_numbers.
  rewrite strip_settled_app; [|apply base_of_settled|apply str_of_N_digits|apply str_of_N_nonnil|lia].
  rewrite int_str_of_N. reflexivity.
Qed.

(** ** splitext of suggested names *)
Definition nodot (s : str) : Prop := ~ In dot_c s.

Lemma split_last_dot_None s : split_last_dot s = None <-> nodot s.
Proof.
  unfold nodot. induction s as [|c r IH]; cbn; [split; auto|].
  destruct (split_last_dot r) as [[a b]|] eqn:E.
  - split; [discriminate|]. intros H. exfalso.
    assert (Some (a, b) = None) by (apply IH; intros Hi; apply H; right; exact Hi). discriminate.
  - destruct (ascii_dec c dot_c) as [->|].
    + split; [discriminate|]. intros H; exfalso; apply H; left; reflexivity.
    + split; [|reflexivity]. intros _ [H|H]; [congruence|]. apply IH in H; [assumption|reflexivity].
Qed.

Lemma split_last_dot_suffix s a b : split_last_dot s = Some (a, b) -> exists x, b = dot_c :: x /\ nodot x.
Proof.
  revert a b. induction s as [|c r IH]; intros a b; [discriminate|]. cbn.
  destruct (split_last_dot r) as [[a' b']|] eqn:E.
  - intros H; inversion H; subst. eapply IH; reflexivity.
  - destruct (ascii_dec c dot_c) as [->|]; [|discriminate]. intros H; inversion H; subst.
    exists r. split; [reflexivity|]. apply split_last_dot_None; assumption.
Qed.

Lemma split_last_dot_app_dot a x : nodot x -> split_last_dot (a ++ dot_c :: x) = Some (a, dot_c :: x).
Proof.
  intros Hx. induction a as [|c a IH]; cbn.
  - apply split_last_dot_None in Hx. rewrite Hx. destruct (ascii_dec dot_c dot_c); congruence.
  - rewrite IH. reflexivity.
Qed.

Lemma lead_dots_rest s : match snd (lead_dots s) with c :: _ => c <> dot_c | [] => True end.
Proof.
  induction s as [|c r IH]; cbn; [exact I|]. destruct (ascii_dec c dot_c); [|cbn; assumption].
  destruct (lead_dots r). exact IH.
Qed.

Lemma lead_dots_app_suffix s x : (exists c, In c s /\ c <> dot_c) ->
  lead_dots (s ++ x) = (fst (lead_dots s), snd (lead_dots s) ++ x).
Proof.
  induction s as [|c r IH]; intros (d & Hd & Hn); [contradiction|]. cbn [app lead_dots].
  destruct (ascii_dec c dot_c) as [->|]; [|reflexivity].
  rewrite IH.
  - destruct (lead_dots r); reflexivity.
  - destruct Hd as [Hd|Hd]; [congruence|]. exists d; auto.
Qed.

(** the base name *)
Definition basename (p : str) : str := snd (split_last_sep p).

Lemma split_last_sep_app_tail p x : noslash x ->
  split_last_sep (p ++ x) = (fst (split_last_sep p), basename p ++ x).
Proof.
  intros Hx. unfold basename.
  pose proof (split_last_sep_app p) as H1.
  pose proof (split_last_sep_tail p) as H2.
  pose proof (split_last_sep_head p) as H3.
  destruct (split_last_sep p) as [h t]. cbn [fst snd] in *.
  rewrite <- H1, <- app_assoc. apply split_last_sep_uniq; [|exact H3].
  intros Hi. apply in_app_or in Hi as [Hi|Hi]; contradiction.
Qed.

(** (A) *)
Lemma splitext_suffix st x : nodot x -> noslash x -> (exists c, In c (basename st) /\ c <> dot_c) ->
  splitext (st ++ dot_c :: x) = (st, dot_c :: x).
Proof.
  intros Hd Hs Hb. unfold splitext.
  rewrite split_last_sep_app_tail.
  - rewrite lead_dots_app_suffix by assumption.
    rewrite split_last_dot_app_dot by assumption.
    rewrite lead_dots_app. f_equal. unfold basename. apply split_last_sep_app.
  - intros [H|H]; [discriminate|contradiction].
Qed.

(** (B) *)
Definition dots_then_none (s : str) : Prop := nodot (snd (lead_dots s)).

Lemma splitext_none p : splitext p = (p, []) <-> dots_then_none (basename p).
Proof.
  unfold splitext, dots_then_none, basename.
  destruct (split_last_sep p) as [h t]. cbn [snd]. destruct (lead_dots t) as [d r]. cbn [snd].
  rewrite <- split_last_dot_None.
  destruct (split_last_dot r) as [[a b]|] eqn:E; [|split; reflexivity].
  split; [|discriminate]. intros H. inversion H; subst.
  destruct (split_last_dot_suffix _ _ _ E) as (x & Hx & _). discriminate.
Qed.

Lemma splitext_snd p st su : splitext p = (st, su) -> su <> [] ->
  exists x, su = dot_c :: x /\ nodot x /\ noslash x.
Proof.
  unfold splitext. pose proof (split_last_sep_tail p) as Ht.
  destruct (split_last_sep p) as [h t]. cbn in Ht.
  pose proof (lead_dots_app t) as Hl. destruct (lead_dots t) as [d r]. cbn in Hl.
  destruct (split_last_dot r) as [[a b]|] eqn:E; intros H Hn; inversion H; subst; [|congruence].
  destruct (split_last_dot_suffix _ _ _ E) as (x & Hx & Hd). exists x. split; [assumption|].
  split; [assumption|]. intros Hi. apply Ht. apply in_or_app; right.
  apply split_last_dot_app in E. rewrite <- E. apply in_or_app; right. subst su. right; exact Hi.
Qed.

Lemma del_digits_basename s s' : del_digits s s' -> del_digits (basename s) (basename s') /\
  (fst (split_last_sep s) = [] <-> fst (split_last_sep s') = []).
Proof.
  unfold basename. induction 1 as [|c s s' H [IH1 IH2]|c s s' Hc H [IH1 IH2]]; cbn.
  - split; [constructor|tauto].
  - destruct (split_last_sep s) as [h t], (split_last_sep s') as [h' t']. cbn in *.
    destruct h as [|a h], h' as [|a' h'].
    + destruct (ascii_dec c sep); cbn; [split; [assumption|split; discriminate]|].
      split; [apply dd_keep; assumption|tauto].
    + exfalso. assert (a' :: h' = []) by (apply IH2; reflexivity). discriminate.
    + exfalso. assert (a :: h = []) by (apply IH2; reflexivity). discriminate.
    + cbn. split; [assumption|split; discriminate].
  - destruct (split_last_sep s) as [h t], (split_last_sep s') as [h' t']. cbn in *.
    destruct h as [|a h].
    + destruct (ascii_dec c sep) as [->|]; [discriminate|]. cbn. split; [|exact IH2].
      apply dd_drop; assumption.
    + cbn. split; [assumption|]. split; [discriminate|]. intros E. apply IH2 in E. discriminate.
Qed.

Lemma del_digits_nodot s s' : del_digits s s' -> nodot s -> nodot s'.
Proof.
  unfold nodot. induction 1; intros Hn; [exact Hn| |].
  - intros [E|Hi]; [apply Hn; left; exact E|].
    apply IHdel_digits; [|exact Hi]. intros H1; apply Hn; right; exact H1.
  - apply IHdel_digits. intros H1; apply Hn; right; exact H1.
Qed.

Lemma del_digits_dots s s' : del_digits s s' -> dots_then_none s -> dots_then_none s'.
Proof.
  unfold dots_then_none. induction 1 as [|c s s' H IH|c s s' Hc H IH]; cbn; [auto| |].
  - destruct (ascii_dec c dot_c).
    + destruct (lead_dots s), (lead_dots s'). cbn in *. exact IH.
    + cbn. intros Hn. apply (del_digits_nodot (c :: s)); [|exact Hn]. apply dd_keep; exact H.
  - destruct (ascii_dec c dot_c) as [->|]; [discriminate|]. cbn. intros Hn.
    assert (Hs : nodot s') by (apply (del_digits_nodot s); [exact H|intros Hi; apply Hn; right; exact Hi]).
    pose proof (lead_dots_app s') as E. intros Hi. apply Hs. rewrite <- E. apply in_or_app; right; exact Hi.
Qed.

Lemma dots_then_none_app s n : dots_then_none s -> nodot n -> n <> [] ->
  match n with c :: _ => c <> dot_c | [] => True end -> dots_then_none (s ++ n).
Proof.
  unfold dots_then_none. induction s as [|c s IH]; intros Hs Hn Hne Hh; cbn [app lead_dots].
  - destruct n as [|c n]; [congruence|]. cbn. destruct (ascii_dec c dot_c); [contradiction|]. exact Hn.
  - cbn in Hs. destruct (ascii_dec c dot_c).
    + destruct (lead_dots s) eqn:E1, (lead_dots (s ++ n)) eqn:E2. cbn in *. apply IH; auto.
    + cbn in *. intros [Hi|Hi]; [apply Hs; left; exact Hi|].
      apply in_app_or in Hi as [Hi|Hi]; [apply Hs; right; exact Hi|contradiction].
Qed.

Lemma digits_nodot d : digits d -> nodot d.
Proof. intros H Hi. unfold digits in H. rewrite Forall_forall in H. apply H in Hi. discriminate. Qed.
Lemma digits_noslash d : digits d -> noslash d.
Proof. intros H Hi. unfold digits in H. rewrite Forall_forall in H. apply H in Hi. discriminate. Qed.

(** Main fact on suggested names: the suggestion keeps the suffix. *)
Lemma splitext_suggestion st su k : splitext (st ++ su) = (st, su) ->
  splitext ((base_of st ++ str_of_N k) ++ su) = (base_of st ++ str_of_N k, su).
Proof.
  intros H. pose proof (str_of_N_digits k) as Hd. pose proof (str_of_N_nonnil k) as Hn.
  set (n := str_of_N k) in *.
  destruct (str_eq_dec su []) as [->|Hsu].
  - rewrite app_nil_r in *. apply splitext_none. apply splitext_none in H.
    unfold basename. rewrite split_last_sep_app_tail by (apply digits_noslash; assumption). cbn [snd].
    apply dots_then_none_app; [|apply digits_nodot; assumption|assumption|].
    + eapply del_digits_dots; [|exact H]. apply del_digits_basename. apply base_of_del.
    + destruct n; [exact I|]. inversion Hd; subst. apply digit_not_dot; assumption.
  - destruct (splitext_snd _ _ _ H Hsu) as (x & -> & H1 & H2).
    apply splitext_suffix; [assumption|assumption|].
    unfold basename. rewrite split_last_sep_app_tail by (apply digits_noslash; assumption). cbn [snd].
    destruct n as [|c n]; [congruence|]. exists c. split.
    + apply in_or_app; right; left; reflexivity.
    + inversion Hd; subst. apply digit_not_dot; assumption.
Qed.

(** ** Distinct suggestions are distinct files *)
Lemma join2_app sd b y : isabs y = false -> b <> [] \/ y <> [] -> (b = [] -> isabs y = false) ->
  join2 sd (b ++ y) = join2 sd b ++ y.
Proof.
  intros Hy _ _. unfold join2. destruct b as [|c b].
  - cbn [app]. rewrite Hy. cbn [isabs]. destruct sd as [|a sd]; [reflexivity|].
    destruct (ends_sep (a :: sd)); [rewrite app_nil_r; reflexivity|].
    rewrite <- app_assoc. reflexivity.
  - cbn [app isabs]. destruct (ascii_dec c sep); [reflexivity|].
    destruct sd as [|a sd]; [reflexivity|].
    destruct (ends_sep (a :: sd)); rewrite <- app_assoc; reflexivity.
Qed.

Lemma initial_slashes_ext P c c' r r' : c <> sep -> c' <> sep ->
  initial_slashes (P ++ c :: r) = initial_slashes (P ++ c' :: r').
Proof.
  intros H H'. unfold initial_slashes.
  destruct P as [|a [|b [|d P]]]; cbn [app]; [| | |reflexivity].
  - destruct r as [|? [|? ?]], r' as [|? [|? ?]]; destruct (ascii_dec c sep), (ascii_dec c' sep); congruence.
  - destruct r as [|? ?], r' as [|? ?]; destruct (ascii_dec a sep);
      destruct (ascii_dec c sep), (ascii_dec c' sep); congruence.
  - destruct (ascii_dec a sep), (ascii_dec b sep), (ascii_dec c sep), (ascii_dec c' sep); congruence.
Qed.

Lemma norm_step_plain ini acc c : c <> [] -> c <> dot -> c <> dotdot -> norm_step ini acc c = c :: acc.
Proof.
  intros H1 H2 H3. unfold norm_step. destruct (str_eq_dec c []); [contradiction|].
  destruct (str_eq_dec c dot); [contradiction|]. destruct (str_eq_dec c dotdot); [contradiction|reflexivity].
Qed.

(** a component with a digit is an ordinary name *)
Lemma digit_plain c x : In x c -> is_digit x = true -> c <> [] /\ c <> dot /\ c <> dotdot.
Proof.
  intros H1 H2. repeat split; intros ->.
  - contradiction.
  - destruct H1 as [<-|[]]; discriminate.
  - destruct H1 as [<-|[<-|[]]]; discriminate.
Qed.

Lemma norm_step_nonempty ini acc c : Forall (fun x => x <> []) acc -> Forall (fun x => x <> []) (norm_step ini acc c).
Proof.
  intros H. unfold norm_step. destruct (str_eq_dec c []) as [|Hc]; [assumption|].
  destruct (str_eq_dec c dot); [assumption|].
  destruct (str_eq_dec c dotdot); [|constructor; assumption].
  destruct acc as [|t acc]; [destruct (ini =? 0); repeat constructor; assumption|].
  inversion H; subst. destruct (str_eq_dec t dotdot); [constructor; assumption|assumption].
Qed.
Lemma norm_fold_nonempty ini cs : forall acc, Forall (fun x => x <> []) acc ->
  Forall (fun x => x <> []) (fold_left (norm_step ini) cs acc).
Proof. induction cs; intros; cbn; [assumption|]. apply IHcs. apply norm_step_nonempty; assumption. Qed.
Lemma norm_step_noslash ini acc c : Forall noslash acc -> noslash c -> Forall noslash (norm_step ini acc c).
Proof.
  intros H Hs. unfold norm_step. destruct (str_eq_dec c []) as [|Hc]; [assumption|].
  destruct (str_eq_dec c dot); [assumption|].
  destruct (str_eq_dec c dotdot); [|constructor; assumption].
  destruct acc as [|t acc]; [destruct (ini =? 0); repeat constructor; assumption|].
  inversion H; subst. destruct (str_eq_dec t dotdot); [constructor; assumption|assumption].
Qed.
Lemma norm_fold_noslash ini cs : forall acc, Forall noslash acc -> Forall noslash cs ->
  Forall noslash (fold_left (norm_step ini) cs acc).
Proof.
  induction cs; intros acc Ha Hc; cbn; [assumption|]. inversion Hc; subst.
  apply IHcs; [|assumption]. apply norm_step_noslash; assumption.
Qed.

(** normpath of a path whose last piece starts with a digit *)
Lemma normpath_last P y d r : y = d :: r -> is_digit d = true -> noslash y ->
  normpath (P ++ y) = repeat sep (initial_slashes (P ++ y)) ++
    join_sep (rev (fold_left (norm_step (initial_slashes (P ++ y))) (removelast (split_sep P)) []) ++
              [last (split_sep P) [] ++ y]).
Proof.
  intros Hy Hd Hs. rewrite normpath_nonnil by (subst; destruct P; discriminate).
  rewrite split_app_noslash by assumption. rewrite fold_left_app. cbn [fold_left].
  assert (Hin : In d (last (split_sep P) [] ++ y)) by (subst y; apply in_or_app; right; left; reflexivity).
  destruct (digit_plain _ _ Hin Hd) as (H1 & H2 & H3).
  rewrite norm_step_plain by assumption. cbn [rev].
  match goal with |- match ?e with _ => _ end = _ => destruct e as [|c q] eqn:E; [|reflexivity] end.
  exfalso. apply app_eq_nil in E as [_ E].
  destruct (rev (fold_left _ _ _)) as [|z l].
  - cbn in E. contradiction.
  - rewrite join_sep_snoc in E by discriminate. apply app_eq_nil in E as [_ E]. discriminate.
Qed.

Lemma join_sep_snoc_inj l x y : join_sep (l ++ [x]) = join_sep (l ++ [y]) -> x = y.
Proof.
  destruct l as [|z l]; [exact (fun H => H)|].
  rewrite !join_sep_snoc by discriminate. intros H.
  apply app_inv_head in H. congruence.
Qed.

Lemma normpath_last_inj P y y' d r d' r' : y = d :: r -> y' = d' :: r' ->
  is_digit d = true -> is_digit d' = true -> noslash y -> noslash y' ->
  normpath (P ++ y) = normpath (P ++ y') -> y = y'.
Proof.
  intros Hy Hy' Hd Hd' Hs Hs' H.
  rewrite (normpath_last P y d r), (normpath_last P y' d' r') in H by assumption.
  assert (E : initial_slashes (P ++ y) = initial_slashes (P ++ y')).
  { subst. apply initial_slashes_ext; apply digit_not_sep; assumption. }
  rewrite E in H. apply app_inv_head in H. apply join_sep_snoc_inj in H.
  apply app_inv_head in H. exact H.
Qed.

(** ** Suggestions of a named target *)
(** a target whose stem and suffix are those of its name, e.g. one made by [from_path] *)
Definition named (t : target) : Prop :=
  exists sd st su, t = mkTarget (Some sd) (Some st) (Some su) /\ splitext (st ++ su) = (st, su).

Lemma from_path_named p : named (from_path p).
Proof.
  unfold from_path. destruct (path_split p) as [sd n]. pose proof (splitext_app n) as H.
  destruct (splitext n) as [st su] eqn:E. exists sd, st, su. split; [reflexivity|].
  cbn in H. rewrite H. exact E.
Qed.

Lemma update_name sd st su nm a b : splitext nm = (a, b) ->
  update (mkTarget (Some sd) (Some st) (Some su)) None None None (Some nm)
  = Ok (mkTarget (Some sd) (Some a) (Some b)).
Proof. intros H. unfold update, Target. rewrite H. reflexivity. Qed.

Lemma update_named t nm : named t -> exists t', update t None None None (Some nm) = Ok t' /\ named t'
  /\ t_subdir t' = t_subdir t /\ t_name t' = Ok nm.
Proof.
  intros (sd & st & su & -> & _). destruct (splitext nm) as [a b] eqn:E.
  pose proof (splitext_app nm) as H. rewrite E in H. cbn in H.
  exists (mkTarget (Some sd) (Some a) (Some b)). split; [apply update_name; assumption|].
  split; [exists sd, a, b; split; [reflexivity|rewrite H; exact E]|].
  split; [reflexivity|]. unfold t_name. cbn. rewrite H. reflexivity.
Qed.

Section Suggestions.
  Variables (sd st su : str).
  Hypothesis Hn : splitext (st ++ su) = (st, su).
  Definition cand (k : N) : target := mkTarget (Some sd) (Some (base_of st ++ str_of_N k)) (Some su).

  Lemma cand_named k : named (cand k).
  Proof. exists sd, (base_of st ++ str_of_N k), su. split; [reflexivity|]. apply splitext_suggestion; assumption. Qed.

  Lemma su_noslash : noslash su.
  Proof.
    destruct (str_eq_dec su []) as [->|H]; [intros []|].
    destruct (splitext_snd _ _ _ Hn H) as (x & -> & _ & Hx). intros [Hi|Hi]; [discriminate|contradiction].
  Qed.

  Lemma cand_key k : t_key (cand k) = inl (normpath (join2 sd (base_of st) ++ str_of_N k ++ su)).
  Proof.
    unfold t_key, fspath, cand; cbn. rewrite <- app_assoc.
    pose proof (str_of_N_digits k) as Hd. pose proof (str_of_N_nonnil k) as Hne.
    rewrite join2_app; [reflexivity| | |].
    - destruct (str_of_N k) as [|c n]; [congruence|]. inversion Hd; subst. cbn.
      destruct (ascii_dec c sep) as [->|]; [discriminate|reflexivity].
    - right. destruct (str_of_N k); [congruence|discriminate].
    - intros _. destruct (str_of_N k) as [|c n]; [congruence|]. inversion Hd; subst. cbn.
      destruct (ascii_dec c sep) as [->|]; [discriminate|reflexivity].
  Qed.

  Lemma cand_key_inj j k : t_key (cand j) = t_key (cand k) -> j = k.
  Proof.
    rewrite !cand_key. intros H. inversion H as [H'].
    pose proof (str_of_N_digits j) as Dj. pose proof (str_of_N_nonnil j) as Nj.
    pose proof (str_of_N_digits k) as Dk. pose proof (str_of_N_nonnil k) as Nk.
    assert (E : str_of_N j ++ su = str_of_N k ++ su).
    { destruct (str_of_N j) as [|cj nj] eqn:Ej; [congruence|].
      destruct (str_of_N k) as [|ck nk] eqn:Ek; [congruence|].
      inversion Dj; subst. inversion Dk; subst.
      eapply (normpath_last_inj (join2 sd (base_of st)));
        [reflexivity|reflexivity|eassumption|eassumption| | |exact H'].
      - intros Hi. apply in_app_or in Hi as [Hi|Hi]; [|exact (su_noslash Hi)].
        exact (digits_noslash _ Dj Hi).
      - intros Hi. apply in_app_or in Hi as [Hi|Hi]; [|exact (su_noslash Hi)].
        exact (digits_noslash _ Dk Hi). }
    apply app_inv_tail in E. apply str_of_N_inj; exact E.
  Qed.

  Lemma cand_update k : update (cand k) None None None (Some (next_stem (base_of st ++ str_of_N k) ++ su))
    = Ok (cand (k + 1)).
  Proof.
    rewrite next_stem_next. unfold cand.
    apply update_name. apply splitext_suggestion; assumption.
  Qed.

  (** the search succeeds or all candidates tried are taken *)
  Lemma default_cand fuel touched : forall k,
    (exists j, (k <= j)%N /\ default_f fuel touched (cand k) = Ok (cand j) /\ in_touched (cand j) touched = false)
    \/ (default_f fuel touched (cand k) = Exn OutOfFuel /\
        forall i, i <= fuel -> in_touched (cand (k + N.of_nat i)) touched = true).
  Proof.
    induction fuel as [|f IH]; intros k; cbn [default_f].
    - destruct (in_touched (cand k) touched) eqn:E.
      + right. split; [reflexivity|]. intros i Hi. assert (i = 0) as -> by lia.
        rewrite N.add_0_r. exact E.
      + left. exists k. split; [lia|]. auto.
    - destruct (in_touched (cand k) touched) eqn:E.
      + cbn [cand t_stem t_suffix]. rewrite (cand_update k). cbn [bind].
        destruct (IH (k + 1)%N) as [(j & H1 & H2 & H3)|[H1 H2]].
        * left. exists j. split; [lia|]. auto.
        * right. split; [exact H1|]. intros i Hi. destruct i as [|i].
          -- rewrite N.add_0_r. exact E.
          -- replace (k + N.of_nat (S i))%N with (k + 1 + N.of_nat i)%N by lia. apply H2. lia.
      + left. exists k. split; [lia|]. auto.
  Qed.

  (** pigeonhole *)
  Lemma cands_not_all_from touched k : ~ (forall i, i <= List.length touched ->
    in_touched (cand (k + N.of_nat i)) touched = true).
  Proof.
    intros H.
    set (l := map (fun i => t_key (cand (k + N.of_nat i))) (seq 0 (S (List.length touched)))).
    assert (Hd : NoDup l).
    { apply Injective_map_NoDup; [|apply seq_NoDup].
      intros a b E. apply cand_key_inj in E. lia. }
    assert (Hi : incl l (map t_key touched)).
    { intros x Hx. apply in_map_iff in Hx as (i & <- & Hi). apply in_seq in Hi.
      specialize (H i ltac:(lia)).
      apply in_touched_iff in H as (u & Hu & <-). apply in_map. exact Hu. }
    pose proof (NoDup_incl_length Hd Hi) as Hl. unfold l in Hl.
    rewrite !map_length, seq_length in Hl. lia.
  Qed.
End Suggestions.

Lemma default_named touched t : named t ->
  (in_touched t touched = false /\ default touched t = Ok t) \/
  (in_touched t touched = true /\ exists sd st su j,
     t = mkTarget (Some sd) (Some st) (Some su) /\ splitext (st ++ su) = (st, su) /\
     (num_of st <= j)%N /\
     default touched t = Ok (cand sd st su j) /\ in_touched (cand sd st su j) touched = false).
Proof.
  intros (sd & st & su & -> & Hs). unfold default. cbn [default_f].
  destruct (in_touched _ touched) eqn:E; [|left; auto]. right. split; [reflexivity|].
  exists sd, st, su. cbn [t_stem t_suffix].
  rewrite next_stem_eq.
  rewrite (update_name sd st su _ (base_of st ++ str_of_N (num_of st)) su)
    by (apply splitext_suggestion; assumption). cbn [bind].
  change (mkTarget (Some sd) (Some (base_of st ++ str_of_N (num_of st))) (Some su))
    with (cand sd st su (num_of st)).
  destruct (default_cand sd st su Hs (List.length touched) touched (num_of st)) as [(j & H1 & H2 & H3)|[H1 H2]].
  - exists j. auto.
  - exfalso. eapply cands_not_all_from; eauto.
Qed.
