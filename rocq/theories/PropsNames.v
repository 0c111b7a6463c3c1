(** Which name an automatic choice ends at (C06). *)
From Coq Require Import Ascii String List Bool Arith NArith Lia DecimalN DecimalFacts DecimalString.
From Verif Require Import Base PosixModel FsModel PathModel PathSpec DirSpec MountSpec PosixProof FsProof TargetProof MountProof.
Import ListNotations.

(** * The specification *)
(** Characters by code point (Latin-1). *)
Definition digit (c : ascii) : Prop := In (nat_of_ascii c) (seq 48 10).
(** Letters, digits, the underscore and the further characters of Latin-1 that Python counts as alphanumeric (ª ² ³ µ ¹ º ¼ ½ ¾
    and the accented letters). *)
Definition word_codes : list nat :=
  seq 48 10 ++ seq 65 26 ++ [95] ++ seq 97 26 ++ [170; 178; 179; 181; 185; 186; 188; 189; 190] ++ seq 192 23 ++ seq 216 31 ++ seq 248 8.
Definition word (c : ascii) : Prop := In (nat_of_ascii c) word_codes.
(** [cut s b ns]: leaving the numbers [ns] out of [s] gives [b].  A number is a whole run of digits followed by the end or
    by a character that is not a word character; other runs of digits stay. *)
Inductive cut : str -> str -> list str -> Prop :=
| cut_nil : cut [] [] []
| cut_other c s b ns : ~ digit c -> cut s b ns -> cut (c :: s) (c :: b) ns
| cut_number d s b ns : d <> [] -> Forall digit d -> match s with [] => True | c :: _ => ~ word c end ->
    cut s b ns -> cut (d ++ s) b (d :: ns)
| cut_kept d c s b ns : d <> [] -> Forall digit d -> word c -> ~ digit c ->
    cut (c :: s) b ns -> cut (d ++ c :: s) (d ++ b) ns.
Definition value (s : str) : N := fold_left (fun a c => 10 * a + (N.of_nat (nat_of_ascii c) - 48))%N s 0%N.
(** Decimal notation: without leading zeros. *)
Definition decimal (n : N) (s : str) : Prop :=
  Forall digit s /\ value s = n /\ (s = $"0" \/ exists c r, s = c :: r /\ c <> "0"%char).
(** Where the numbering starts: after the first number of the name, and from 0 if there is none. *)
Definition first_number (ns : list str) : N := match ns with [] => 0 | n :: _ => value n + 1 end.

(** * The model meets it *)
Lemma digit_iff c : digit c <-> is_digit c = true.
Proof. unfold digit. rewrite in_seq. rewrite is_digit_code. unfold code. lia. Qed.
Lemma word_iff c : word c <-> is_word c = true.
Proof.
  assert (H : (if in_dec Nat.eq_dec (nat_of_ascii c) word_codes then true else false) = is_word c).
  { destruct c as [[] [] [] [] [] [] [] []]; vm_compute; reflexivity. }
  unfold word. rewrite <- H. destruct (in_dec _ _ _); split; intros; (trivial || discriminate || contradiction).
Qed.
Lemma digits_iff s : Forall digit s <-> digits s.
Proof. unfold digits. rewrite !Forall_forall. split; intros H x Hx; apply digit_iff, H, Hx. Qed.

Lemma take_digits_run d s : digits d -> match s with [] => True | c :: _ => is_digit c = false end ->
  take_digits (d ++ s) = (d, s).
Proof.
  induction 1 as [|c d Hc _ IH]; intros Hs; cbn [app take_digits].
  - destruct s as [|c s]; [reflexivity|]. cbn [take_digits]. rewrite Hs. reflexivity.
  - rewrite Hc, IH by assumption. reflexivity.
Qed.
Lemma strip_cut n : forall s, List.length s <= n -> cut s (fst (strip_numbers n s)) (snd (strip_numbers n s)).
Proof.
  induction n as [|n IH]; intros s Hl.
  - destruct s; [constructor|cbn in Hl; lia].
  - destruct s as [|c r]; [constructor|]. cbn [strip_numbers]. destruct (is_digit c) eqn:E.
    + pose proof (take_digits_spec (c :: r)) as (H1 & H2 & H3).
      assert (Hne : fst (take_digits (c :: r)) <> []). { cbn. rewrite E. destruct (take_digits r). discriminate. }
      destruct (take_digits (c :: r)) as [d t]. cbn [fst snd] in *.
      assert (Ht : List.length t <= n).
      { apply (f_equal (@List.length ascii)) in H2. rewrite app_length in H2. cbn in H2, Hl. destruct d; [congruence|cbn in H2; lia]. }
      specialize (IH t Ht). destruct (strip_numbers n t) as [b ms]. cbn [fst snd] in IH.
      destruct (at_boundary t) eqn:Eb; cbn [fst snd]; rewrite <- H2.
      * constructor; [assumption|apply digits_iff; assumption| |assumption].
        destruct t as [|x t]; [exact I|]. cbn in Eb. rewrite word_iff. apply negb_true_iff in Eb. congruence.
      * destruct t as [|x t]; [discriminate|]. cbn in Eb. apply negb_false_iff in Eb.
        constructor; [assumption|apply digits_iff; assumption|apply word_iff; assumption| |assumption].
        rewrite digit_iff. congruence.
    + cbn in Hl. specialize (IH r ltac:(lia)). destruct (strip_numbers n r) as [b ms]. cbn [fst snd] in *.
      constructor; [|assumption]. rewrite digit_iff. congruence.
Qed.
Lemma cut_det s b ns : cut s b ns -> forall n, List.length s <= n -> strip_numbers n s = (b, ns).
Proof.
  induction 1 as [|c s b ns Hc _ IH|d s b ns Hd Hf Hw _ IH|d c s b ns Hd Hf Hw Hc _ IH]; intros n Hl.
  - destruct n; reflexivity.
  - destruct n as [|n]; [cbn in Hl; lia|]. cbn [strip_numbers]. rewrite digit_iff in Hc. destruct (is_digit c); [congruence|].
    rewrite IH; [reflexivity|cbn in Hl; lia].
  - apply digits_iff in Hf. assert (Ht : take_digits (d ++ s) = (d, s)).
    { apply take_digits_run; [assumption|]. destruct s as [|c s]; [exact I|]. destruct (is_digit c) eqn:E; [|reflexivity].
      exfalso. apply Hw. apply word_iff. apply digit_word. exact E. }
    destruct d as [|x d]; [congruence|]. destruct n as [|n]; [cbn in Hl; lia|]. cbn [app strip_numbers]. inversion Hf; subst. rewrite H1.
    change (x :: d ++ s) with ((x :: d) ++ s). rewrite Ht. rewrite IH by (cbn in Hl; rewrite app_length in Hl; lia).
    assert (Hb : at_boundary s = true).
    { destruct s as [|c s]; [reflexivity|]. cbn. rewrite word_iff in Hw. destruct (is_word c); [congruence|reflexivity]. }
    rewrite Hb. reflexivity.
  - apply digits_iff in Hf. rewrite digit_iff in Hc. rewrite word_iff in Hw.
    assert (Ht : take_digits (d ++ c :: s) = (d, c :: s)).
    { apply take_digits_run; [assumption|]. destruct (is_digit c); congruence. }
    destruct d as [|x d]; [congruence|]. destruct n as [|n]; [cbn in Hl; lia|]. cbn [app strip_numbers]. inversion Hf; subst. rewrite H1.
    change (x :: d ++ c :: s) with ((x :: d) ++ c :: s). rewrite Ht. rewrite IH by (cbn in Hl; rewrite app_length in Hl; cbn in *; lia).
    cbn [at_boundary]. rewrite Hw. reflexivity.
Qed.
Theorem C06_numbers_of_a_name : forall s b ns, cut s b ns <-> substitute_numbers s = (b, ns).
Proof.
  intros s b ns. unfold substitute_numbers. split.
  - intros H. apply cut_det; [assumption|lia].
  - intros H. pose proof (strip_cut (List.length s) s ltac:(lia)) as G. rewrite H in G. exact G.
Qed.
Print Assumptions C06_numbers_of_a_name.
Example C06_numbers_of_a_name_example : cut ($"a1_7-012.3b") ($"a1_-.3b") [$"7"; $"012"].
Proof. apply C06_numbers_of_a_name. vm_compute. reflexivity. Qed.

(** Numbers and their decimal notation. *)
Definition uvalue (u : Decimal.uint) (a : N) : N :=
  fold_left (fun a c => 10 * a + (N.of_nat (nat_of_ascii c) - 48))%N (list_ascii_of_string (NilEmpty.string_of_uint u)) a.
Lemma of_uint_acc u : forall p, N.pos (Pos.of_uint_acc u p) = uvalue u (N.pos p).
Proof.
  unfold uvalue. induction u as [|u IH|u IH|u IH|u IH|u IH|u IH|u IH|u IH|u IH|u IH]; intros p;
    cbn [Pos.of_uint_acc NilEmpty.string_of_uint list_ascii_of_string fold_left]; [reflexivity|..]; rewrite IH; f_equal;
    match goal with |- context [(N.of_nat (nat_of_ascii ?c) - 48)%N] =>
      let v := eval vm_compute in (N.of_nat (nat_of_ascii c) - 48)%N in change (N.of_nat (nat_of_ascii c) - 48)%N with v end; lia.
Qed.
Lemma of_uint_value u : N.of_uint u = uvalue u 0.
Proof.
  unfold N.of_uint. induction u as [|u IH|u IH|u IH|u IH|u IH|u IH|u IH|u IH|u IH|u IH]; [reflexivity|exact IH|..];
    cbn [Pos.of_uint]; rewrite of_uint_acc; reflexivity.
Qed.
Lemma digits_back s : digits s -> list_ascii_of_string (NilEmpty.string_of_uint (uint_of_digits s)) = s.
Proof.
  induction 1 as [|c s Hc _ IH]; [reflexivity|]. cbn [uint_of_digits].
  assert (G : forall u r, list_ascii_of_string (NilEmpty.string_of_uint u) = r -> is_digit c = true ->
    list_ascii_of_string (NilEmpty.string_of_uint match code c - 48 with
      | 0 => Decimal.D0 u | 1 => Decimal.D1 u | 2 => Decimal.D2 u | 3 => Decimal.D3 u
      | 4 => Decimal.D4 u | 5 => Decimal.D5 u | 6 => Decimal.D6 u | 7 => Decimal.D7 u
      | 8 => Decimal.D8 u | _ => Decimal.D9 u end) = c :: r).
  { intros u r <-. destruct c as [[] [] [] [] [] [] [] []]; intros H; try discriminate H; reflexivity. }
  apply G; [exact IH|exact Hc].
Qed.
Lemma int_value s : digits s -> int_of_digits s = value s.
Proof. intros H. unfold int_of_digits. rewrite of_uint_value. unfold uvalue. rewrite digits_back by assumption. reflexivity. Qed.
Lemma decimal_str n : decimal n (str_of_N n).
Proof.
  pose proof (str_of_N_digits n) as Hd. split; [apply digits_iff; exact Hd|]. split.
  - rewrite <- int_value by assumption. apply int_str_of_N.
  - unfold str_of_N. destruct n as [|p]; [left; reflexivity|]. right.
    pose proof (DecimalPos.Unsigned.to_uint_nonnil p) as Hn.
    assert (Hh : Decimal.unorm (Pos.to_uint p) = Pos.to_uint p) by (rewrite <- DecimalPos.Unsigned.to_of, DecimalPos.Unsigned.of_to; reflexivity).
    cbn [N.to_uint]. destruct (Pos.to_uint p) as [|u|u|u|u|u|u|u|u|u|u] eqn:E; [congruence| |
      eexists; eexists; split; [reflexivity|discriminate]..].
    exfalso. apply unorm_D0 in Hh || idtac.
    assert (Hl : forall v, Decimal.nb_digits (Decimal.nzhead v) <= Decimal.nb_digits v) by (intros v; apply nb_digits_nzhead).
    pose proof (DecimalPos.Unsigned.of_to p) as Ho. rewrite E in Ho. cbn in Ho.
    pose proof (DecimalPos.Unsigned.to_of (Decimal.D0 u)) as Ht. cbn in Ht. rewrite Ho in Ht. cbn [N.to_uint] in Ht. rewrite E in Ht.
    unfold Decimal.unorm in Ht. cbn in Ht. specialize (Hl u). destruct (Decimal.nzhead u) eqn:Ez; try (rewrite <- Ht in Hl; cbn in Hl; lia).
    inversion Ht; subst. cbn in Ho. discriminate.
Qed.
Lemma decimal_uniq n s : decimal n s -> s = str_of_N n.
Proof.
  intros (H1 & H2 & H3). apply digits_iff in H1. rewrite <- H2, <- int_value by assumption. unfold int_of_digits, str_of_N.
  rewrite DecimalN.Unsigned.to_of. destruct H3 as [->|(c & r & -> & Hc)]; [reflexivity|].
  assert (Hu : Decimal.unorm (uint_of_digits (c :: r)) = uint_of_digits (c :: r)).
  { inversion H1; subst. cbn [uint_of_digits].
    destruct c as [[] [] [] [] [] [] [] []]; try discriminate; try congruence; reflexivity. }
  rewrite Hu. symmetry. apply digits_back. assumption.
Qed.

(** * The name that is chosen *)
Lemma default_least sd st su : splitext (st ++ su) = (st, su) -> forall fuel touched k j,
  default_f fuel touched (cand sd st su k) = Ok (cand sd st su j) ->
  (k <= j)%N /\ forall i, (k <= i < j)%N -> in_touched (cand sd st su i) touched = true.
Proof.
  intros Hs. induction fuel as [|f IH]; intros touched k j; cbn [default_f].
  - destruct (in_touched _ touched); [discriminate|]. intros H.
    assert (k = j) as <- by (apply (cand_key_inj sd st su Hs); congruence). split; [lia|]. intros i Hi. lia.
  - destruct (in_touched (cand sd st su k) touched) eqn:E.
    + change (t_stem (cand sd st su k)) with (Some (base_of st ++ str_of_N k)). change (t_suffix (cand sd st su k)) with (Some su).
      cbv beta iota. rewrite (cand_update sd st su Hs k). cbn [bind]. intros H. apply IH in H as [H1 H2]. split; [lia|].
      intros i Hi. destruct (N.eq_dec i k) as [->|]; [assumption|]. apply H2. lia.
    + intros H. assert (k = j) as <- by (apply (cand_key_inj sd st su Hs); congruence). split; [lia|]. intros i Hi. lia.
Qed.

(** A target that was used before is renamed by numbering: the numbers of its stem make way for one number at the end, the
    smallest free one counting from the first number of the stem plus one (from 0 if it has none); directory and suffix
    stay. *)
Theorem C06_auto_name : forall conf choice inputs touched p,
  policy conf choice = $"auto" -> (exists u, In u touched /\ teq u (from_path p) = true) ->
  exists sd st su base ns j text,
    from_path p = mkTarget (Some sd) (Some st) (Some su) /\ cut st base ns /\
    (first_number ns <= j)%N /\ decimal j text /\
    (let t' := mkTarget (Some sd) (Some (base ++ text)) (Some su) in
     register conf choice inputs touched (from_path p) = Ok (t', touched ++ [t'], inputs) /\
     forall u, In u touched -> teq u t' = false) /\
    forall i text', (first_number ns <= i < j)%N -> decimal i text' ->
      exists u, In u touched /\ teq u (mkTarget (Some sd) (Some (base ++ text')) (Some su)) = true.
Proof.
  intros conf choice inputs touched p Hp (u0 & Hu0 & Ht0).
  assert (Hn : named (from_path p)) by apply from_path_named.
  assert (Ht : in_touched (from_path p) touched = true). { apply in_touched_iff. exists u0. split; [assumption|]. apply teq_iff; assumption. }
  destruct (default_named touched _ Hn) as [[E _]|[_ (sd & st & su & j & E & Hs & Hj & Hd & Hf)]]; [congruence|].
  destruct (register_auto_touched conf choice inputs touched _ Hn Ht Hp) as (sd' & st' & su' & j' & E' & _ & _ & Hreg).
  rewrite E in E'. inversion E'; subst sd' st' su'. clear E'.
  assert (Hjj : j' = j).
  { clear - Hreg Hd Hp Ht Hf E Hs. unfold register in Hreg. cbn [register_f] in Hreg. rewrite Ht, Hd in Hreg. cbn [bind] in Hreg.
    change (match choice with Some c => c | None => conf end) with (policy conf choice) in Hreg. rewrite Hp in Hreg.
    destruct (str_eq_dec ($"auto") ($"prompt")) as [H|_]; [discriminate H|]. cbn [bind] in Hreg.
    destruct (str_eq_dec ($"auto") ($"auto")); [|congruence]. rewrite orb_true_r in Hreg.
    destruct (update_cand sd st su j Hs) as (n & H1 & H2). rewrite H1 in Hreg. cbn [bind] in Hreg. rewrite E, H2 in Hreg. cbn [bind] in Hreg.
    rewrite Hf in Hreg. assert (K : t_key (cand sd st su j) = t_key (cand sd st su j')) by congruence.
    symmetry. apply (cand_key_inj sd st su Hs). exact K. }
  subst j'. exists sd, st, su, (base_of st), (snd (substitute_numbers st)), j, (str_of_N j).
  assert (Hc : cut st (base_of st) (snd (substitute_numbers st))).
  { apply C06_numbers_of_a_name. unfold base_of. destruct (substitute_numbers st); reflexivity. }
  assert (Hnum : num_of st = first_number (snd (substitute_numbers st))).
  { unfold num_of, first_number. assert (G : Forall digits (snd (substitute_numbers st))).
    { clear - Hc. induction Hc; try assumption; constructor; [apply digits_iff; assumption|assumption]. }
    destruct (snd (substitute_numbers st)) as [|m ms]; [reflexivity|]. inversion G; subst. rewrite int_value by assumption. reflexivity. }
  split; [assumption|]. split; [assumption|]. split; [lia|]. split; [apply decimal_str|]. split.
  - split; [exact Hreg|]. intros u Hu. rewrite in_touched_false in Hf. apply teq_false. apply Hf. assumption.
  - assert (L : forall i, (num_of st <= i < j)%N -> in_touched (cand sd st su i) touched = true).
    { assert (G : exists f, default_f f touched (cand sd st su (num_of st)) = Ok (cand sd st su j)).
      { clear - Hd Ht E Hs. unfold default in Hd. cbn [default_f] in Hd. rewrite Ht, E in Hd. cbn [t_stem t_suffix] in Hd.
        rewrite next_stem_eq in Hd. rewrite (update_name sd st su _ (base_of st ++ str_of_N (num_of st)) su) in Hd by (apply splitext_suggestion; assumption).
        cbn [bind] in Hd. eexists. exact Hd. }
      destruct G as [f G]. apply (default_least sd st su Hs) in G as [_ G]. exact G. }
    intros i text' Hi Hdec. apply decimal_uniq in Hdec. subst text'. rewrite <- Hnum in Hi. specialize (L i Hi).
    apply in_touched_iff in L as (u & L1 & L2). exists u. split; [assumption|]. apply teq_iff. exact L2.
Qed.
Print Assumptions C06_auto_name.
Example C06_auto_name_example :
  policy ($"auto") None = $"auto" /\ cut ($"v1-7") ($"v-") [$"1"; $"7"] /\
  exists t', register ($"auto") None [] [from_path ($"d/v1-7.txt"); from_path ($"d/v-2.txt")] (from_path ($"d/v1-7.txt"))
   = Ok (t', [from_path ($"d/v1-7.txt"); from_path ($"d/v-2.txt"); t'], []) /\ fspath t' = Ok ($"d/v-3.txt").
Proof. split; [reflexivity|]. split; [apply C06_numbers_of_a_name; vm_compute; reflexivity|]. eexists. vm_compute. split; reflexivity. Qed.
