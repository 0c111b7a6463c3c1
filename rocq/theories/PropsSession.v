(** C109: several processes that append to the same runs. *)
From Coq Require Import List Bool Arith Lia.
From Verif Require Import SessionModel.
Import ListNotations.

Section Values.
Variable V : Type.
Implicit Types (s : state V) (vals : nat -> list V) (m : meta).

(** ** Specification *)
(** Runs as they are on disk: every listed number was given out and is listed once. *)
Definition in_order (m : meta) : Prop := NoDup (m_listed m) /\ forall k, In k (m_listed m) -> k < m_count m.

(** The processes [l] have their turn one after the other: each loads, writes its records and writes the file of the key. *)
Definition in_turn (vals : nat -> list V) (l : list nat) : list nat := flat_map (fun i => repeat i (2 + List.length (vals i))) l.

(** ** Lemmas *)
Lemma set_same (f : nat -> stage V) i x : set_stage f i x i = x.
Proof. unfold set_stage. rewrite Nat.eqb_refl. reflexivity. Qed.
Lemma set_other (f : nat -> stage V) i x j : j <> i -> set_stage f i x j = f j.
Proof. intros H. unfold set_stage. apply Nat.eqb_neq in H. rewrite H. reflexivity. Qed.
Lemma upd_same (d : nat -> option V) k v : upd d k v k = Some v.
Proof. unfold upd. rewrite Nat.eqb_refl. reflexivity. Qed.
Lemma upd_other (d : nat -> option V) k v j : j <> k -> upd d k v j = d j.
Proof. intros H. unfold upd. apply Nat.eqb_neq in H. rewrite H. reflexivity. Qed.

Lemma step_other vals s i j : j <> i -> s_stage (step vals s i) j = s_stage s j.
Proof. intros H. unfold step. destruct (s_stage s i) as [|[|[k v] r] m|]; cbn [s_stage]; try apply set_other; auto. Qed.
Lemma run_app vals a b s : run vals (a ++ b) s = run vals b (run vals a s).
Proof. apply fold_left_app. Qed.
Lemma run_cons vals i l s : run vals (i :: l) s = run vals l (step vals s i).
Proof. reflexivity. Qed.
Lemma run_other vals l s j : ~ In j l -> s_stage (run vals l s) j = s_stage s j.
Proof. revert s. induction l as [|i l IH]; intros s H; [reflexivity|]. rewrite run_cons. cbn [In] in H. rewrite IH by tauto. apply step_other. intuition. Qed.

Definition write_all (p : list (nat * V)) (d : nat -> option V) : nat -> option V := fold_left (fun d kv => upd d (fst kv) (snd kv)) p d.

Lemma run_pending vals i p : forall s m, s_stage s i = Saving p m ->
  let s' := run vals (repeat i (List.length p)) s in
  s_meta s' = s_meta s /\ s_data s' = write_all p (s_data s) /\ s_stage s' i = Saving [] m.
Proof.
  induction p as [|[k v] p IH]; intros s m H; [cbn; auto|]. cbn [List.length repeat]. rewrite run_cons.
  assert (E : step vals s i = mk_state (s_meta s) (upd (s_data s) k v) (set_stage (s_stage s) i (Saving p m))) by (unfold step; rewrite H; reflexivity).
  rewrite E. apply (IH (mk_state (s_meta s) (upd (s_data s) k v) (set_stage (s_stage s) i (Saving p m))) m). apply set_same.
Qed.

Lemma run_meta vals i s m : s_stage s i = Saving [] m -> s_meta (run vals [i] s) = m /\ s_data (run vals [i] s) = s_data s /\ s_stage (run vals [i] s) i = Done.
Proof. intros H. cbn. unfold step. rewrite H. cbn. rewrite set_same. auto. Qed.

Lemma run_load vals i s : s_stage s i = Start ->
  s_meta (run vals [i] s) = s_meta s /\ s_data (run vals [i] s) = s_data s /\
  s_stage (run vals [i] s) i = Saving (numbered (s_meta s) (vals i)) (appended (s_meta s) (vals i)).
Proof. intros H. cbn. unfold step. rewrite H. cbn. rewrite set_same. auto. Qed.

Lemma numbered_len m (l : list V) : List.length (numbered m l) = List.length l.
Proof. unfold numbered. rewrite combine_length, seq_length. lia. Qed.

Lemma combine_fst {A B} (a : list A) : forall b : list B, List.length a = List.length b -> map fst (combine a b) = a.
Proof. induction a as [|x a IH]; intros [|y b] H; cbn in *; try discriminate; [reflexivity|]. rewrite IH by lia. reflexivity. Qed.

Lemma numbered_fst m (l : list V) : map fst (numbered m l) = seq (m_count m) (List.length l).
Proof. unfold numbered. apply combine_fst. apply seq_length. Qed.

Lemma write_all_at (l : list V) : forall c d k, write_all (combine (seq c (List.length l)) l) d k =
  if (c <=? k) && (k <? c + List.length l) then nth_error l (k - c) else d k.
Proof.
  induction l as [|v l IH]; intros c d k; cbn [List.length seq combine].
  - rewrite Nat.add_0_r. destruct (Nat.leb_spec c k), (Nat.ltb_spec k c); try lia; reflexivity.
  - cbn [write_all fold_left fst snd]. fold (write_all (combine (seq (S c) (List.length l)) l) (upd d c v)). rewrite IH.
    destruct (Nat.eq_dec k c) as [->|Hk].
    + destruct (Nat.leb_spec (S c) c); [lia|]. cbn [andb]. rewrite upd_same, Nat.leb_refl, Nat.sub_diag.
      destruct (Nat.ltb_spec c (c + S (List.length l))); [reflexivity|lia].
    + rewrite upd_other by assumption. destruct (Nat.leb_spec (S c) k), (Nat.leb_spec c k), (Nat.ltb_spec k (S c + List.length l)), (Nat.ltb_spec k (c + S (List.length l))); try lia; cbn [andb]; try reflexivity.
      replace (k - c) with (S (k - S c)) by lia. reflexivity.
Qed.

Lemma map_shift {A B} (d : nat -> A) (f : nat -> B) c n g : (forall k, c <= k < c + n -> g (d k) = f (k - c)) -> map (fun k => g (d k)) (seq c n) = map f (seq 0 n).
Proof.
  intros H. rewrite <- (map_map d g). assert (E : forall n c', (forall k, c' <= k < c' + n -> g (d (c + k)) = f k) -> map g (map d (seq (c + c') n)) = map f (seq c' n)).
  { clear n H. induction n as [|n IH]; intros c' H; [reflexivity|]. cbn [seq map]. rewrite (H c') by lia. f_equal.
    replace (S (c + c')) with (c + S c') by lia. apply IH. intros k Hk. apply H. lia. }
  rewrite <- (E n 0); [rewrite Nat.add_0_r; reflexivity|]. intros k Hk. rewrite H by lia. f_equal. lia.
Qed.

Lemma nth_seq (l : list V) : map (nth_error l) (seq 0 (List.length l)) = map Some l.
Proof. induction l as [|v l IH]; [reflexivity|]. cbn [List.length seq map nth_error]. f_equal. rewrite <- seq_shift, map_map. exact IH. Qed.

(** A process that is not interrupted. *)
Lemma whole vals i s : s_stage s i = Start ->
  let s' := run vals (repeat i (2 + List.length (vals i))) s in
  s_meta s' = appended (s_meta s) (vals i) /\ s_data s' = write_all (numbered (s_meta s) (vals i)) (s_data s) /\
  forall j, j <> i -> s_stage s' j = s_stage s j.
Proof.
  intros H s'. assert (E : repeat i (2 + List.length (vals i)) = [i] ++ repeat i (List.length (numbered (s_meta s) (vals i))) ++ [i]).
  { rewrite numbered_len. change [i] with (repeat i 1). rewrite <- !repeat_app. f_equal. lia. }
  split; [|split].
  - unfold s'. rewrite E, !run_app. destruct (run_load vals i s H) as (A1 & A2 & A3).
    destruct (run_pending vals i _ _ _ A3) as (B1 & B2 & B3). destruct (run_meta vals i _ _ B3) as (C1 & C2 & _). exact C1.
  - unfold s'. rewrite E, !run_app. destruct (run_load vals i s H) as (A1 & A2 & A3).
    destruct (run_pending vals i _ _ _ A3) as (B1 & B2 & B3). destruct (run_meta vals i _ _ B3) as (C1 & C2 & _). rewrite C2, B2, A2. reflexivity.
  - intros j Hj. unfold s'. apply run_other. intros Hin. apply repeat_spec in Hin. contradiction.
Qed.

(** ** Theorems *)
(** One after the other: the runs of all of them are there, in order, with their values, after those that were there. *)
Theorem C109_one_after_another : forall vals l m d, NoDup l -> in_order m ->
  runs (run vals (in_turn vals l) (initial m d)) = runs (initial m d) ++ flat_map (fun i => map Some (vals i)) l.
Proof.
  intros vals l m d Hnd Hm.
  assert (G : forall l s, NoDup l -> in_order (s_meta s) -> (forall i, In i l -> s_stage s i = Start) ->
    runs (run vals (in_turn vals l) s) = runs s ++ flat_map (fun i => map Some (vals i)) l).
  { clear. induction l as [|i l IH]; intros s Hnd Hm Hst; [cbn; rewrite app_nil_r; reflexivity|].
    inversion Hnd as [|? ? N1 N2]; subst. unfold in_turn. cbn [flat_map]. rewrite run_app. fold (in_turn vals l).
    destruct (whole vals i s (Hst i (or_introl eq_refl))) as (E1 & E2 & E3).
    set (s1 := run vals (repeat i (2 + List.length (vals i))) s) in *.
    destruct Hm as [M1 M2].
    rewrite IH; [|assumption| |].
    - rewrite app_assoc. f_equal. unfold runs. rewrite E1, E2. unfold appended. cbn [m_listed]. rewrite map_app. f_equal.
      + apply map_ext_in. intros k Hk. specialize (M2 k Hk). unfold numbered. rewrite write_all_at.
        destruct (Nat.leb_spec (m_count (s_meta s)) k); [lia|reflexivity].
      + rewrite numbered_fst. rewrite <- (nth_seq (vals i)).
        apply (map_shift (fun k => k) (nth_error (vals i)) _ _ (write_all (numbered (s_meta s) (vals i)) (s_data s))).
        intros k Hk. unfold numbered. rewrite write_all_at.
        destruct (Nat.leb_spec (m_count (s_meta s)) k), (Nat.ltb_spec k (m_count (s_meta s) + List.length (vals i))); try lia; reflexivity.
    - rewrite E1. unfold appended. split; cbn [m_listed m_count].
      + rewrite numbered_fst. clear - M1 M2. induction (m_listed (s_meta s)) as [|x r IHr]; [apply seq_NoDup|].
        inversion M1 as [|? ? X1 X2]; subst. cbn [app]. constructor.
        * rewrite in_app_iff, in_seq. intros [H|H]; [contradiction|]. specialize (M2 x (or_introl eq_refl)). lia.
        * apply IHr; [assumption|]. intros k Hk. apply M2. right. exact Hk.
      + intros k Hk. rewrite numbered_fst in Hk. apply in_app_or in Hk as [Hk|Hk]; [specialize (M2 k Hk); lia|]. apply in_seq in Hk. lia.
    - intros j Hj. rewrite E3 by (intros ->; contradiction). apply Hst. right. exact Hj. }
  apply G; auto.
Qed.

(** The process that writes the file of the key last decides which runs are listed: those it had loaded and its own, none that others
    added after it had loaded. *)
Theorem C109_last_one_decides : forall vals before rest i m d, ~ In i before ->
  let s := run vals before (initial m d) in
  let s' := run vals (before ++ [i] ++ rest) (initial m d) in
  s_stage s' i = Saving [] (appended (s_meta s) (vals i)) ->
  m_listed (s_meta (run vals (before ++ [i] ++ rest ++ [i]) (initial m d))) =
    m_listed (s_meta s) ++ seq (m_count (s_meta s)) (List.length (vals i)).
Proof.
  intros vals before rest i m d Hb s s' Hs. rewrite !app_assoc, run_app, <- app_assoc. fold s'.
  destruct (run_meta vals i s' _ Hs) as (E & _ & _). rewrite E. unfold appended. cbn [m_listed]. rewrite numbered_fst. reflexivity.
Qed.

(** That stage is reached after as many steps as it has values, whatever the others do in between. *)
Theorem C109_last_one_gets_there : forall vals before rest i m d, ~ In i before ->
  let s := run vals before (initial m d) in
  count_occ Nat.eq_dec rest i = List.length (vals i) ->
  s_stage (run vals (before ++ [i] ++ rest) (initial m d)) i = Saving [] (appended (s_meta s) (vals i)).
Proof.
  intros vals before rest i m d Hb s Hc. rewrite !run_app. fold s.
  assert (Hs : s_stage s i = Start) by (unfold s; rewrite run_other by assumption; reflexivity).
  destruct (run_load vals i s Hs) as (_ & _ & E).
  assert (G : forall rest p u mm, s_stage u i = Saving p mm -> count_occ Nat.eq_dec rest i = List.length p -> s_stage (run vals rest u) i = Saving [] mm).
  { clear. induction rest as [|j rest IH]; intros p u mm H Hc.
    - destruct p; [exact H|discriminate].
    - rewrite run_cons. cbn [count_occ] in Hc. destruct (Nat.eq_dec j i) as [->|Hj].
      + destruct p as [|[k v] p]; [discriminate|]. apply (IH p); [|cbn in Hc; lia]. unfold step. rewrite H. cbn [s_stage]. apply set_same.
      + apply (IH p); [|assumption]. rewrite step_other by congruence. exact H. }
  apply (G rest _ _ _ E). rewrite numbered_len. exact Hc.
Qed.

(** Two that have loaded the same runs and save one after the other: the runs of the first are not listed; their files are overwritten by those of the
    second as far as there are some, and otherwise left behind. *)
Theorem C109_first_one_lost : forall vals a b m d, a <> b -> in_order m ->
  let s := run vals ([a; b] ++ repeat a (1 + List.length (vals a)) ++ repeat b (1 + List.length (vals b))) (initial m d) in
  runs s = runs (initial m d) ++ map Some (vals b) /\
  (forall k, k < List.length (vals b) -> s_data s (m_count m + k) = nth_error (vals b) k) /\
  (forall k, List.length (vals b) <= k < List.length (vals a) -> s_data s (m_count m + k) = nth_error (vals a) k).
Proof.
  intros vals a b m d Hab Hm s. destruct Hm as [M1 M2].
  assert (D : s_meta s = appended m (vals b) /\ s_data s = write_all (numbered m (vals b)) (write_all (numbered m (vals a)) d)).
  { unfold s. change [a; b] with ([a] ++ [b]). rewrite !run_app.
    destruct (run_load vals a (initial m d) eq_refl) as (A1 & A2 & A3). set (s1 := run vals [a] (initial m d)) in *.
    assert (Hb : s_stage s1 b = Start) by (unfold s1; rewrite run_other by (cbn; intuition); reflexivity).
    destruct (run_load vals b s1 Hb) as (B1 & B2 & B3). set (s2 := run vals [b] s1) in *.
    assert (Ha : s_stage s2 a = Saving (numbered m (vals a)) (appended m (vals a))) by (unfold s2; rewrite run_other by (cbn; intuition); exact A3).
    replace (1 + List.length (vals a)) with (List.length (numbered m (vals a)) + 1) by (rewrite numbered_len; lia).
    replace (1 + List.length (vals b)) with (List.length (numbered m (vals b)) + 1) by (rewrite numbered_len; lia).
    rewrite !repeat_app, !run_app. cbn [repeat].
    destruct (run_pending vals a _ _ _ Ha) as (C1 & C2 & C3). set (s3 := run vals (repeat a (List.length (numbered m (vals a)))) s2) in *.
    destruct (run_meta vals a _ _ C3) as (D1 & D2 & D3). set (s4 := run vals [a] s3) in *.
    assert (Hb4 : s_stage s4 b = Saving (numbered m (vals b)) (appended m (vals b))).
    { unfold s4, s3. rewrite run_other by (cbn; intuition). rewrite run_other by (intros H; apply repeat_spec in H; congruence).
      rewrite B3, A1. reflexivity. }
    destruct (run_pending vals b _ _ _ Hb4) as (E1 & E2 & E3). destruct (run_meta vals b _ _ E3) as (F1 & F2 & F3).
    split; [exact F1|]. rewrite F2, E2, D2, C2, B2, A2. reflexivity. }
  destruct D as [D1 D2]. split; [|split].
  - unfold runs. rewrite D1, D2. unfold appended. cbn [m_listed]. rewrite map_app. f_equal.
    + apply map_ext_in. intros k Hk. specialize (M2 k Hk). unfold numbered. rewrite !write_all_at.
      destruct (Nat.leb_spec (m_count m) k); [lia|reflexivity].
    + rewrite numbered_fst, <- (nth_seq (vals b)).
      apply (map_shift (fun k => k) (nth_error (vals b)) _ _ (write_all (numbered m (vals b)) (write_all (numbered m (vals a)) d))).
      intros k Hk. unfold numbered at 1. rewrite write_all_at.
      destruct (Nat.leb_spec (m_count m) k), (Nat.ltb_spec k (m_count m + List.length (vals b))); try lia; reflexivity.
  - intros k Hk. rewrite D2. unfold numbered at 1. rewrite write_all_at.
    destruct (Nat.leb_spec (m_count m) (m_count m + k)), (Nat.ltb_spec (m_count m + k) (m_count m + List.length (vals b))); try lia. cbn [andb].
    f_equal. lia.
  - intros k Hk. rewrite D2. unfold numbered at 1. rewrite write_all_at.
    destruct (Nat.ltb_spec (m_count m + k) (m_count m + List.length (vals b))); [lia|]. rewrite andb_false_r. unfold numbered. rewrite write_all_at.
    destruct (Nat.leb_spec (m_count m) (m_count m + k)), (Nat.ltb_spec (m_count m + k) (m_count m + List.length (vals a))); try lia. cbn [andb].
    f_equal. lia.
Qed.

(** If the second writes its records and the file of the key just before the first writes the file of the key, then the first one's list shows the values of the second. *)
Theorem C109_values_of_another : forall vals a b m d, a <> b -> in_order m ->
  runs (run vals ([a; b] ++ repeat a (List.length (vals a)) ++ repeat b (1 + List.length (vals b)) ++ [a]) (initial m d)) =
  runs (initial m d) ++ map Some (firstn (List.length (vals a)) (vals b) ++ skipn (List.length (vals b)) (vals a)).
Proof.
  intros vals a b m d Hab Hm. destruct Hm as [M1 M2]. set (s := run _ _ _).
  assert (D : s_meta s = appended m (vals a) /\ s_data s = write_all (numbered m (vals b)) (write_all (numbered m (vals a)) d)).
  { unfold s. change [a; b] with ([a] ++ [b]). rewrite !run_app.
    destruct (run_load vals a (initial m d) eq_refl) as (A1 & A2 & A3). set (s1 := run vals [a] (initial m d)) in *.
    assert (Hb : s_stage s1 b = Start) by (unfold s1; rewrite run_other by (cbn; intuition); reflexivity).
    destruct (run_load vals b s1 Hb) as (B1 & B2 & B3). set (s2 := run vals [b] s1) in *.
    assert (Ha : s_stage s2 a = Saving (numbered m (vals a)) (appended m (vals a))) by (unfold s2; rewrite run_other by (cbn; intuition); exact A3).
    replace (List.length (vals a)) with (List.length (numbered m (vals a))) by (rewrite numbered_len; lia).
    replace (1 + List.length (vals b)) with (List.length (numbered m (vals b)) + 1) by (rewrite numbered_len; lia).
    rewrite !repeat_app, !run_app. cbn [repeat].
    destruct (run_pending vals a _ _ _ Ha) as (C1 & C2 & C3). set (s3 := run vals (repeat a (List.length (numbered m (vals a)))) s2) in *.
    assert (Hb3 : s_stage s3 b = Saving (numbered m (vals b)) (appended m (vals b))).
    { unfold s3. rewrite run_other by (intros H; apply repeat_spec in H; congruence). rewrite B3, A1. reflexivity. }
    destruct (run_pending vals b _ _ _ Hb3) as (E1 & E2 & E3). set (s4 := run vals (repeat b (List.length (numbered m (vals b)))) s3) in *.
    destruct (run_meta vals b _ _ E3) as (F1 & F2 & F3). set (s5 := run vals [b] s4) in *.
    assert (Ha5 : s_stage s5 a = Saving [] (appended m (vals a))).
    { unfold s5, s4. rewrite run_other by (cbn; intuition). rewrite run_other by (intros H; apply repeat_spec in H; congruence). exact C3. }
    destruct (run_meta vals a _ _ Ha5) as (G1 & G2 & _). split; [exact G1|]. rewrite G2, F2, E2, C2, B2, A2. reflexivity. }
  destruct D as [D1 D2]. unfold runs. rewrite D1, D2. unfold appended. cbn [m_listed]. rewrite map_app. f_equal.
  - apply map_ext_in. intros k Hk. specialize (M2 k Hk). unfold numbered. rewrite !write_all_at.
    destruct (Nat.leb_spec (m_count m) k); [lia|reflexivity].
  - rewrite numbered_fst. set (z := firstn (List.length (vals a)) (vals b) ++ skipn (List.length (vals b)) (vals a)).
    assert (Lz : List.length z = List.length (vals a)) by (unfold z; rewrite app_length, firstn_length, skipn_length; lia).
    rewrite <- (nth_seq z), Lz.
    apply (map_shift (fun k => k) (nth_error z) _ _ (write_all (numbered m (vals b)) (write_all (numbered m (vals a)) d))).
    intros k Hk. unfold numbered. rewrite !write_all_at. unfold z. set (j := k - m_count m).
    destruct (Nat.leb_spec (m_count m) k); [|lia]. cbn [andb].
    destruct (Nat.ltb_spec k (m_count m + List.length (vals a))); [|lia].
    destruct (Nat.ltb_spec k (m_count m + List.length (vals b))).
    + rewrite nth_error_app1 by (rewrite firstn_length; unfold j; lia).
      rewrite <- (firstn_skipn (List.length (vals a)) (vals b)) at 1. rewrite nth_error_app1 by (rewrite firstn_length; unfold j; lia). reflexivity.
    + rewrite nth_error_app2 by (rewrite firstn_length; unfold j; lia). rewrite firstn_length.
      replace (Nat.min (List.length (vals a)) (List.length (vals b))) with (List.length (vals b)) by lia.
      rewrite <- (firstn_skipn (List.length (vals b)) (vals a)) at 1.
      rewrite nth_error_app2 by (rewrite firstn_length; unfold j; lia). rewrite firstn_length. f_equal. lia.
Qed.

(** Whatever the order of the steps: the runs that were there are still listed and have their values, every number is listed once, and
    every further run that is listed has the value that some process gave to some run. *)
Theorem C109_never_broken : forall vals schedule m d, in_order m ->
  let s := run vals schedule (initial m d) in
  exists more, m_listed (s_meta s) = m_listed m ++ more /\ NoDup (m_listed (s_meta s)) /\
    (forall k, In k (m_listed m) -> s_data s k = d k) /\
    (forall k, In k more -> exists v i, s_data s k = Some v /\ In i schedule /\ In v (vals i)).
Proof.
  intros vals schedule m d Hm.
  set (given := fun (l : list nat) (s : state V) k => exists v i, s_data s k = Some v /\ In i l /\ In v (vals i)).
  set (good := fun (l : list nat) (s : state V) (p : list nat) (x : meta) => in_order x /\ m_count m <= m_count x /\
    exists more, m_listed x = m_listed m ++ more /\ forall k, In k more -> m_count m <= k /\ (given l s k \/ In k p)).
  set (inv := fun (l : list nat) (s : state V) => good l s [] (s_meta s) /\
    (forall k, k < m_count m -> s_data s k = d k) /\
    (forall i p x, s_stage s i = Saving p x -> In i l /\ good l s (map fst p) x /\ forall k v, In (k, v) p -> m_count m <= k /\ In v (vals i))).
  assert (Hx : forall x (vs : list V), in_order x -> in_order (appended x vs)).
  { intros x vs [M1 M2]. unfold appended. split; cbn [m_listed m_count].
    - rewrite numbered_fst. clear - M1 M2. induction (m_listed x) as [|y r IHr]; [apply seq_NoDup|].
      inversion M1 as [|? ? X1 X2]; subst. cbn [app]. constructor.
      + rewrite in_app_iff, in_seq. intros [H|H]; [contradiction|]. specialize (M2 y (or_introl eq_refl)). lia.
      + apply IHr; [assumption|]. intros k Hk. apply M2. right. exact Hk.
    - intros k Hk. rewrite numbered_fst in Hk. apply in_app_or in Hk as [Hk|Hk]; [specialize (M2 k Hk); lia|]. apply in_seq in Hk. lia. }
  assert (mono : forall l i s s' p p' x, good l s p x -> (forall k, given l s k -> given (l ++ [i]) s' k) ->
    (forall k, In k p -> given (l ++ [i]) s' k \/ In k p') -> good (l ++ [i]) s' p' x).
  { intros l i s s' p p' x (G1 & G2 & more & G3 & G4) H1 H2. split; [assumption|]. split; [assumption|]. exists more. split; [assumption|].
    intros k Hk. destruct (G4 k Hk) as [K1 [K2|K2]]; split; auto. }
  assert (G : forall l, inv l (run vals l (initial m d))).
  { intros l. induction l as [|i l IH] using rev_ind.
    - split; [|split]; cbn [run fold_left initial s_meta s_data s_stage]; [|reflexivity|discriminate].
      split; [assumption|]. split; [lia|]. exists []. split; [rewrite app_nil_r; reflexivity|intros k []].
    - rewrite run_app. set (s := run vals l (initial m d)) in *. change (run vals [i] s) with (step vals s i). destruct IH as (I1 & I2 & I3).
      assert (keep : forall s', s_data s' = s_data s -> forall k, given l s k -> given (l ++ [i]) s' k).
      { intros s' E k (v & j & K1 & K2 & K3). exists v, j. rewrite E. split; [assumption|]. split; [apply in_or_app; left; assumption|assumption]. }
      unfold step. destruct (s_stage s i) as [|[|[k v] r] x|] eqn:Est.
      + split; [|split]; cbn [s_meta s_data s_stage].
        * apply (mono l i s _ [] [] _ I1); [apply keep; reflexivity|intros k []].
        * exact I2.
        * intros j p x Ej. destruct (Nat.eq_dec j i) as [->|Hj].
          -- rewrite set_same in Ej. inversion Ej; subst p x. split; [apply in_or_app; right; left; reflexivity|].
             destruct I1 as (G1 & G2 & more & G3 & G4). split.
             ++ split; [apply Hx; assumption|]. split; [unfold appended; cbn [m_count]; lia|].
                exists (more ++ map fst (numbered (s_meta s) (vals i))). split; [unfold appended; cbn [m_listed]; rewrite G3, app_assoc; reflexivity|].
                intros k Hk. apply in_app_or in Hk as [Hk|Hk].
                ** destruct (G4 k Hk) as [K1 [K2|[]]]. split; [assumption|]. left. apply keep; [reflexivity|assumption].
                ** split; [|right; exact Hk]. rewrite numbered_fst in Hk. apply in_seq in Hk. lia.
             ++ intros k v Hkv. split.
                ** apply (in_map fst) in Hkv. rewrite numbered_fst in Hkv. apply in_seq in Hkv. cbn in Hkv. lia.
                ** unfold numbered in Hkv. apply in_combine_r in Hkv. exact Hkv.
          -- rewrite set_other in Ej by assumption. destruct (I3 _ _ _ Ej) as (J1 & J2 & J3). split; [apply in_or_app; left; assumption|]. split; [|assumption].
             apply (mono l i s _ (map fst p) _ _ J2); [apply keep; reflexivity|auto].
      + split; [|split]; cbn [s_meta s_data s_stage].
        * destruct (I3 _ _ _ Est) as (J1 & J2 & J3). apply (mono l i s _ [] [] _ J2); [apply keep; reflexivity|intros k []].
        * exact I2.
        * intros j p y Ej. destruct (Nat.eq_dec j i) as [->|Hj]; [rewrite set_same in Ej; discriminate|].
          rewrite set_other in Ej by assumption. destruct (I3 _ _ _ Ej) as (J1 & J2 & J3). split; [apply in_or_app; left; assumption|]. split; [|assumption].
          apply (mono l i s _ (map fst p) _ _ J2); [apply keep; reflexivity|auto].
      + destruct (I3 _ _ _ Est) as (J1 & J2 & J3). destruct (J3 k v (or_introl eq_refl)) as [Kk Kv].
        match goal with |- inv _ ?t => set (s' := t) end.
        assert (new : given (l ++ [i]) s' k).
        { exists v, i. cbn [s' s_data]. rewrite upd_same. split; [reflexivity|]. split; [apply in_or_app; right; left; reflexivity|assumption]. }
        assert (keep' : forall j, given l s j -> given (l ++ [i]) s' j).
        { intros j (w & a & K1 & K2 & K3). destruct (Nat.eq_dec j k) as [->|Hjk]; [exact new|]. exists w, a. cbn [s' s_data].
          rewrite upd_other by assumption. split; [assumption|]. split; [apply in_or_app; left; assumption|assumption]. }
        split; [|split]; cbn [s' s_meta s_data s_stage].
        * apply (mono l i s _ [] [] _ I1); [exact keep'|intros ? []].
        * intros j Hj. rewrite upd_other by lia. apply I2, Hj.
        * intros j p y Ej. destruct (Nat.eq_dec j i) as [->|Hj].
          -- rewrite set_same in Ej. inversion Ej; subst p y. split; [apply in_or_app; right; left; reflexivity|]. split.
             ++ apply (mono l i s _ (map fst ((k, v) :: r)) _ _ J2); [exact keep'|]. intros q [<-|Hq]; [left; exact new|right; exact Hq].
             ++ intros q w Hq. apply J3. right. exact Hq.
          -- rewrite set_other in Ej by assumption. destruct (I3 _ _ _ Ej) as (L1 & L2 & L3). split; [apply in_or_app; left; assumption|]. split; [|assumption].
             apply (mono l i s _ (map fst p) _ _ L2); [exact keep'|auto].
      + split; [|split].
        * apply (mono l i s _ [] [] _ I1); [apply keep; reflexivity|intros k []].
        * exact I2.
        * intros j p y Ej. destruct (I3 _ _ _ Ej) as (J1 & J2 & J3). split; [apply in_or_app; left; assumption|]. split; [|assumption].
          apply (mono l i s _ (map fst p) _ _ J2); [apply keep; reflexivity|auto]. }
  intros s. destruct (G schedule) as (((I1 & _) & _ & more & I2 & I3) & I4 & _). fold s in I1, I2, I3, I4. exists more.
  split; [exact I2|]. split; [exact I1|]. split.
  - intros k Hk. apply I4. destruct Hm as [_ M2]. auto.
  - intros k Hk. destruct (I3 k Hk) as [_ [K|[]]]. exact K.
Qed.
End Values.
Print Assumptions C109_one_after_another.
Print Assumptions C109_last_one_decides.
Print Assumptions C109_last_one_gets_there.
Print Assumptions C109_first_one_lost.
Print Assumptions C109_values_of_another.
Print Assumptions C109_never_broken.

(** One run is there; process 0 appends three, process 1 appends one. *)
Definition ex_vals (i : nat) : list nat := match i with 0 => [10; 11; 12] | _ => [20] end.
Definition ex_meta : meta := mk_meta [0] 1.
Definition ex_data (k : nat) : option nat := match k with 0 => Some 5 | _ => None end.
Example C109_example :
  in_order ex_meta /\
  runs (run ex_vals (in_turn nat ex_vals [0; 1]) (initial ex_meta ex_data)) = [Some 5; Some 10; Some 11; Some 12; Some 20] /\
  runs (run ex_vals ([0; 1] ++ repeat 0 4 ++ repeat 1 2) (initial ex_meta ex_data)) = [Some 5; Some 20] /\
  runs (run ex_vals ([0; 1] ++ repeat 0 3 ++ repeat 1 2 ++ [0]) (initial ex_meta ex_data)) = [Some 5; Some 20; Some 11; Some 12] /\
  s_stage (run ex_vals ([] ++ [0] ++ [0; 1; 1; 0; 1; 0]) (initial ex_meta ex_data)) 0 = Saving [] (appended ex_meta (ex_vals 0)).
Proof.
  split; [split; [constructor; [intros []|constructor]|intros k [<-|[]]; cbn; lia]|]. repeat split; vm_compute; reflexivity.
Qed.
