(** Property C93: chained exceptions in the failures dman keeps. *)
From Coq Require Import List Bool Arith Lia FinFun.
From Verif Require Import ChainModel.
Import ListNotations.

(** * The specification *)
(** [leads H x y c]: below [x] the exception [y] is shown; [c] says whether as explicit cause. *)
Inductive leads (H : heap) (x y : nat) : bool -> Prop :=
| ld_cause : e_cause (H x) = Some y -> e_traceback (H y) <> None -> leads H x y true
| ld_context : (forall z, e_cause (H x) = Some z -> e_traceback (H z) = None) ->
    e_context (H x) = Some y -> e_traceback (H y) <> None -> e_suppress (H x) = false -> leads H x y false.
(** A chain from [x] to an exception that leads nowhere, with how each was reached. *)
Inductive chain (H : heap) : nat -> bool -> list (nat * bool) -> Prop :=
| ch_end x c : (forall y b, ~ leads H x y b) -> chain H x c [(x, c)]
| ch_step x c y b l : leads H x y b -> chain H y b l -> chain H x c ((x, c) :: l).
Inductive reach (H : heap) : nat -> nat -> Prop :=
| re_refl x : reach H x x
| re_step x y b z : leads H x y b -> reach H y z -> reach H x z.
(** The stack kept of an exception. *)
Definition shows (H : heap) (xc : nat * bool) (s : stack) : Prop :=
  s_type s = e_type (H (fst xc)) /\ s_text s = e_text (H (fst xc)) /\ s_is_cause s = snd xc /\
  s_frames s = match e_traceback (H (fst xc)) with Some f => f | None => [] end.

Lemma next_iff H x y c : next H x = Some (y, c) <-> leads H x y c.
Proof.
  unfold next, raised. split.
  - destruct (e_cause (H x)) as [z|] eqn:Ec.
    + destruct (e_traceback (H z)) eqn:Et.
      * intros G. inversion G; subst. apply ld_cause; congruence.
      * destruct (e_context (H x)) as [w|] eqn:Ex; [|discriminate]. destruct (e_traceback (H w)) eqn:Ew; [|discriminate].
        destruct (e_suppress (H x)) eqn:Es; [discriminate|]. intros G. inversion G; subst. apply ld_context; try congruence.
    + destruct (e_context (H x)) as [w|] eqn:Ex; [|discriminate]. destruct (e_traceback (H w)) eqn:Ew; [|discriminate].
      destruct (e_suppress (H x)) eqn:Es; [discriminate|]. intros G. inversion G; subst. apply ld_context; congruence.
  - intros [Ec Et|Ec Ex Et Es].
    + rewrite Ec. destruct (e_traceback (H y)); [reflexivity|congruence].
    + rewrite Ex, Es. destruct (e_traceback (H y)); [|congruence]. destruct (e_cause (H x)) as [z|]; [|reflexivity].
      rewrite (Ec z eq_refl). reflexivity.
Qed.
Lemma next_none H x : next H x = None <-> forall y b, ~ leads H x y b.
Proof.
  split.
  - intros E y b Hl. apply next_iff in Hl. congruence.
  - intros G. destruct (next H x) as [[y b]|] eqn:E; [|reflexivity]. apply next_iff in E. exfalso. exact (G y b E).
Qed.

Lemma collect_chain H n : forall x c l, collect H n x c = Some l -> exists ch, chain H x c ch /\ Forall2 (shows H) ch l.
Proof.
  induction n as [|n IH]; intros x c l; cbn [collect]; [discriminate|]. destruct (next H x) as [[y b]|] eqn:E.
  - destruct (collect H n y b) as [r|] eqn:Er; [|discriminate]. intros G. inversion G; subst. apply IH in Er as (ch & H1 & H2).
    exists ((x, c) :: ch). split; [eapply ch_step; [apply next_iff; exact E|exact H1]|]. constructor; [repeat split|exact H2].
  - intros G. inversion G; subst. exists [(x, c)]. split; [constructor; apply next_none; exact E|]. constructor; [repeat split|constructor].
Qed.
Lemma chain_collect H x c ch : chain H x c ch -> forall n, length ch <= n -> exists l, collect H n x c = Some l /\ Forall2 (shows H) ch l.
Proof.
  induction 1 as [x c He|x c y b l Hl _ IH]; intros n Hn; (destruct n as [|n]; [cbn in Hn; lia|]); cbn [collect].
  - apply next_none in He. rewrite He. eexists. split; [reflexivity|]. constructor; [repeat split|constructor].
  - apply next_iff in Hl. rewrite Hl. destruct (IH n) as (r & H1 & H2); [cbn in Hn; lia|]. rewrite H1.
    eexists. split; [reflexivity|]. constructor; [repeat split|exact H2].
Qed.

(** * The theorems *)
(** What is kept: one stack for every exception of the chain, from the one that was raised to the end, each with its own
    frames and with how it was reached; [ignore] shortens the traceback of the first only. *)
Theorem C93_what_is_kept : forall H x ignore l,
  (exists n, from_exception H n x ignore = Some l) <->
  exists s f r ch, chain H x false ((x, false) :: ch) /\ shows H (x, false) s /\ s_frames s = firstn ignore (s_frames s) ++ f /\
    length f = length (s_frames s) - ignore /\
    Forall2 (shows H) ch r /\ l = mkStack (s_type s) (s_text s) false f :: r.
Proof.
  intros H x ignore l. split.
  - intros (n & G). unfold from_exception in G. destruct (collect H n x false) as [[|s r]|] eqn:E; [| |discriminate].
    + inversion G; subst. apply collect_chain in E as (ch & H1 & H2). inversion H2; subst. inversion H1.
    + inversion G; subst. apply collect_chain in E as (ch & H1 & H2). inversion H2 as [|xc ? ch' ? Hs Hr]; subst.
      assert (xc = (x, false)) by (inversion H1; reflexivity). subst xc.
      exists s, (skipn ignore (s_frames s)), r, ch'. split; [exact H1|]. split; [exact Hs|].
      split; [symmetry; apply firstn_skipn|]. split; [apply skipn_length|]. split; [exact Hr|].
      destruct Hs as (_ & _ & Hc & _). cbn in Hc. rewrite Hc. reflexivity.
  - intros (s & f & r & ch & H1 & H2 & H3 & H4 & H5 & ->). destruct (chain_collect H x false _ H1 _ (le_n _)) as (l & E & F).
    exists (length ((x, false) :: ch)). unfold from_exception. rewrite E. inversion F as [|? s' ? r' Hs Hr]; subst.
    assert (s' = s). { destruct s, s', H2 as (A1 & A2 & A3 & A4), Hs as (B1 & B2 & B3 & B4). cbn in *. congruence. } subst s'.
    assert (r' = r).
    { clear - H5 Hr. revert r' Hr. induction H5 as [|a b la lb Hab _ IH]; intros r' Hr; inversion Hr as [|? b' ? lb' Hb Hl]; subst; [reflexivity|].
      f_equal; [|apply IH; assumption]. destruct b, b', Hab as (A1 & A2 & A3 & A4), Hb as (B1 & B2 & B3 & B4). cbn in *. congruence. } subst r'.
    assert (skipn ignore (s_frames s) = f). { apply (app_inv_head (firstn ignore (s_frames s))). rewrite firstn_skipn. exact H3. }
    destruct H2 as (_ & _ & Hc & _). cbn in Hc. rewrite Hc. congruence.
Qed.
Print Assumptions C93_what_is_kept.

(** Cycles: collecting the chain never ends exactly when it runs into a cycle (as after [raise e from e]). *)
Fixpoint iter (H : heap) (n x : nat) : option nat :=
  match n with 0 => Some x | S m => match next H x with Some (y, _) => iter H m y | None => None end end.
Lemma collect_iter H n : forall x c, (exists l, collect H n x c = Some l) <-> iter H n x = None.
Proof.
  induction n as [|n IH]; intros x c; cbn [collect iter].
  - split; [intros [? ?]; discriminate|discriminate].
  - destruct (next H x) as [[y b]|]; [|split; [reflexivity|intros _; eexists; reflexivity]]. rewrite <- (IH y b). split.
    + intros [l G]. destruct (collect H n y b) as [r|]; [exists r; reflexivity|discriminate].
    + intros [r G]. rewrite G. eexists. reflexivity.
Qed.
Lemma iter_add H n : forall m x, iter H (n + m) x = match iter H n x with Some y => iter H m y | None => None end.
Proof. induction n as [|n IH]; intros m x; cbn [iter Nat.add]; [reflexivity|]. destruct (next H x) as [[y b]|]; [apply IH|reflexivity]. Qed.
Lemma iter_reach H n : forall x y, iter H n x = Some y -> reach H x y.
Proof.
  induction n as [|n IH]; intros x y; cbn [iter]; [intros G; inversion G; constructor|].
  destruct (next H x) as [[z b]|] eqn:E; [|discriminate]. intros G. eapply re_step; [apply next_iff; exact E|]. apply IH. exact G.
Qed.
Lemma reach_iter H x y : reach H x y -> exists n, iter H n x = Some y.
Proof.
  induction 1 as [x|x y b z Hl _ (n & IH)]; [exists 0; reflexivity|]. exists (S n). cbn [iter]. apply next_iff in Hl. rewrite Hl. exact IH.
Qed.
Theorem C93_never_ends_iff : forall H x ignore known,
  (forall y, reach H x y -> In y known) ->
  ((forall n, from_exception H n x ignore = None) <-> exists y z b, reach H x y /\ leads H y z b /\ reach H z y).
Proof.
  intros H x ignore known Hk.
  assert (A : (forall n, from_exception H n x ignore = None) <-> forall n, iter H n x <> None).
  { split; intros G n.
    - intros E. apply (proj2 (collect_iter H n x false)) in E as [l E]. specialize (G n). unfold from_exception in G. rewrite E in G. destruct l; discriminate.
    - unfold from_exception. destruct (collect H n x false) as [l|] eqn:E; [|reflexivity]. exfalso. apply (G n). apply (collect_iter H n x false). exists l. exact E. }
  rewrite A. split.
  - intros G. set (N := length known). set (f := fun n => match iter H n x with Some y => y | None => 0 end).
    assert (Hf : forall n, iter H n x = Some (f n)). { intros n. unfold f. specialize (G n). destruct (iter H n x); congruence. }
    assert (Hd : ~ NoDup (map f (seq 0 (S N)))).
    { intros Hn. assert (Hi : incl (map f (seq 0 (S N))) known).
      { intros y Hy. apply in_map_iff in Hy as (i & <- & _). apply Hk. eapply iter_reach. apply Hf. }
      pose proof (NoDup_incl_length Hn Hi) as L. rewrite map_length, seq_length in L. unfold N in L. lia. }
    assert (D : exists i j, i < j /\ f i = f j).
    { destruct (List.existsb (fun p => (fst p <? snd p) && (f (fst p) =? f (snd p))) (list_prod (seq 0 (S N)) (seq 0 (S N)))) eqn:E.
      - apply existsb_exists in E as ([i j] & _ & E). apply andb_true_iff in E as [E1 E2]. apply Nat.ltb_lt in E1. apply Nat.eqb_eq in E2. exists i, j. auto.
      - exfalso. apply Hd. assert (Hall : forall i j, i < S N -> j < S N -> i < j -> f i <> f j).
        { intros i j Hi Hj Hij Heq. assert (T : existsb (fun p => (fst p <? snd p) && (f (fst p) =? f (snd p))) (list_prod (seq 0 (S N)) (seq 0 (S N))) = true).
          { apply existsb_exists. exists (i, j). split; [apply in_prod; apply in_seq; lia|]. cbn [fst snd]. apply andb_true_iff. split; [apply Nat.ltb_lt; exact Hij|apply Nat.eqb_eq; exact Heq]. }
          congruence. }
        assert (Q : forall l, NoDup l -> (forall i, In i l -> i < S N) -> NoDup (map f l)).
        { induction 1 as [|i l Hi _ IH]; intros Hb; cbn [map]; constructor; [|apply IH; intros; apply Hb; right; assumption].
          intros Hin. apply in_map_iff in Hin as (j & Hj & Hjl). assert (i <> j) by (intros ->; contradiction).
          assert (i < S N) by (apply Hb; left; reflexivity). assert (j < S N) by (apply Hb; right; assumption).
          destruct (Nat.lt_ge_cases i j) as [L|L]; [apply (Hall i j); auto|apply (Hall j i); auto; lia]. }
        apply Q; [apply seq_NoDup|]. intros i Hi. apply in_seq in Hi. lia. }
    destruct D as (i & j & Hij & Heq). assert (Ej : iter H (i + S (j - i - 1)) x = Some (f j)) by (replace (i + S (j - i - 1)) with j by lia; apply Hf).
    rewrite iter_add, Hf in Ej. cbn [iter] in Ej. destruct (next H (f i)) as [[z b]|] eqn:En; [|discriminate].
    exists (f i), z, b. split; [eapply iter_reach; apply Hf|]. split; [apply next_iff; exact En|]. rewrite Heq. eapply iter_reach. exact Ej.
  - intros (y & z & b & H1 & H2 & H3) n. apply reach_iter in H1 as (i & Hi). apply reach_iter in H3 as (j & Hj). apply next_iff in H2.
    assert (P : iter H (S j) y = Some y). { cbn [iter]. rewrite H2. exact Hj. }
    assert (Q : forall k, iter H (k * S j) y = Some y). { induction k as [|k IH]; [reflexivity|]. cbn [Nat.mul]. rewrite iter_add, P. exact IH. }
    intros E. assert (R : iter H (n + (i + n * S j - n)) x = Some y).
    { replace (n + (i + n * S j - n)) with (i + n * S j) by nia. rewrite iter_add, Hi. apply Q. }
    rewrite iter_add, E in R. discriminate.
Qed.
Print Assumptions C93_never_ends_iff.

(** ** The text *)
Inductive body (s : stack) : list piece -> Prop :=
| bd_bare : s_frames s = [] -> body s [PException (s_type s) (s_text s)]
| bd_trace : s_frames s <> [] -> body s [PTraceback (s_frames s); PException (s_type s) (s_text s)].
(** The text for exceptions in the order of the text. *)
Inductive told : list stack -> list piece -> Prop :=
| told_nil : told [] []
| told_cause s r b t : s_is_cause s = true -> body s b -> told r t -> told (s :: r) (b ++ t)
| told_other s r b t : s_is_cause s = false -> body s b -> told r t -> told (s :: r) (PDirectCause :: b ++ t).
Lemma body_iff s b : body s b <-> b = (match s_frames s with [] => [] | f => [PTraceback f] end) ++ [PException (s_type s) (s_text s)].
Proof.
  split.
  - intros [E|E]; [rewrite E; reflexivity|]. destruct (s_frames s); [congruence|reflexivity].
  - intros ->. destruct (s_frames s) as [|f r] eqn:E; [apply bd_bare; exact E|]. cbn [app]. rewrite <- E. apply bd_trace. congruence.
Qed.
Lemma told_iff l : forall t, told l t <-> t = concat (map (format_stack false) l).
Proof.
  induction l as [|s l IH]; intros t; cbn [map concat].
  - split; [intros G; inversion G; reflexivity|intros ->; constructor].
  - unfold format_stack at 1. split.
    + intros G. inversion G as [|? ? b t' Hc Hb Ht|? ? b t' Hc Hb Ht]; subst; rewrite Hc; apply body_iff in Hb; apply IH in Ht; subst; rewrite <- ?app_assoc; reflexivity.
    + intros ->. destruct (s_is_cause s) eqn:Hc; cbn [app].
      * apply told_cause; [exact Hc|apply body_iff; reflexivity|apply IH; reflexivity].
      * apply told_other; [exact Hc|apply body_iff; reflexivity|apply IH; reflexivity].
Qed.
(** The exceptions are told from the end of the chain to the one that was raised.  With two or more of them, the sentence
    "The above exception was the direct cause of the following exception" stands above an exception exactly when that
    exception is not itself the explicit cause of the one below it: how the exception above is related to it plays no role,
    and the sentence even opens the text when the end of the chain was merely a context. *)
Theorem C93_sentence : forall l t,
  (2 <= length l -> (format_trace l = t <-> told (rev l) t)) /\
  (forall s, l = [s] -> (format_trace l = t <-> exists b, body s b /\ t = PNewline :: b)).
Proof.
  intros l t. split.
  - intros Hl. unfold format_trace. assert (E : (length l =? 1) = false) by (apply Nat.eqb_neq; lia). rewrite E, told_iff. split; congruence.
  - intros s ->. unfold format_trace. cbn. rewrite app_nil_r. split.
    + intros <-. eexists. split; [apply body_iff; reflexivity|reflexivity].
    + intros (b & Hb & ->). apply body_iff in Hb. subst b. reflexivity.
Qed.
Print Assumptions C93_sentence.

(** Whoever reads the sentence as documented by Python is misled in both ways. *)
Definition ex_heap (cause : bool) : heap := fun n =>
  match n with
  | 0 => mkExc 10 20 (Some [1; 2; 3]) (if cause then Some 1 else None) (Some 1) cause
  | 1 => mkExc 11 21 (Some [4]) (if cause then Some 2 else None) (Some 2) cause
  | 2 => mkExc 12 22 (Some [5]) None None false
  | 3 => mkExc 13 23 (Some [6]) (Some 3) None true
  | _ => mkExc 0 0 None None None false
  end.
Theorem C93_sentence_marks_causes_refuted : exists H x l y z t,
  from_exception H 5 x 0 = Some l /\ leads H y z true /\ s_text t = e_text (H y) /\ In t l /\
  ~ exists a b f, format_trace l = a ++ [PException (e_type (H z)) (e_text (H z)); PDirectCause] ++ f ++ [PException (e_type (H y)) (e_text (H y))] ++ b /\ length f <= 1.
Proof.
  exists (ex_heap true), 0. eexists. exists 1, 2, (mkStack 11 21 true [4]). split; [vm_compute; reflexivity|].
  split; [apply ld_cause; [reflexivity|discriminate]|]. split; [reflexivity|]. split; [right; left; reflexivity|].
  intros (a & b & f & E & _). vm_compute in E.
  repeat (destruct a as [|? a]; cbn in E; [discriminate|injection E as _ E]). destruct a; discriminate.
Qed.
Print Assumptions C93_sentence_marks_causes_refuted.
Example C93_example :
  from_exception (ex_heap false) 9 0 1 = Some [mkStack 10 20 false [2; 3]; mkStack 11 21 false [4]; mkStack 12 22 false [5]] /\
  chain (ex_heap false) 0 false [(0, false); (1, false); (2, false)] /\
  format_trace [mkStack 10 20 false [2; 3]; mkStack 11 21 false [4]] =
    [PDirectCause; PTraceback [4]; PException 11 21; PDirectCause; PTraceback [2; 3]; PException 10 20] /\
  (forall y, reach (ex_heap true) 3 y -> In y [3]) /\ leads (ex_heap true) 3 3 true.
Proof.
  split; [vm_compute; reflexivity|]. split.
  { assert (L : forall x, x < 2 -> leads (ex_heap false) x (S x) false).
    { intros x Hx. destruct x as [|[|x]]; [| |lia]; (apply ld_context; [discriminate|reflexivity|discriminate|reflexivity]). }
    eapply ch_step; [apply L; lia|]. eapply ch_step; [apply L; lia|]. constructor. apply next_none. reflexivity. }
  split; [vm_compute; reflexivity|].
  assert (L3 : leads (ex_heap true) 3 3 true) by (apply ld_cause; [reflexivity|discriminate]). split; [|exact L3].
  assert (G : forall x y, reach (ex_heap true) x y -> x = 3 -> y = 3).
  { induction 1 as [x|x y b z Hl _ IH]; intros Hx; [exact Hx|]. apply IH. subst x. apply next_iff in Hl. apply next_iff in L3. congruence. }
  intros y Hy. left. symmetry. exact (G 3 y Hy eq_refl).
Qed.
