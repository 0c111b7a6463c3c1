(** C53: [uninterrupted]. *)
From Coq Require Import List Bool Arith Lia.
From Verif Require Import InterruptModel.
Import ListNotations.

(** ** Specification *)
(** The user's steps of a program, in order. *)
Fixpoint steps (p : prog) : list nat :=
  match p with Step k => [k] | Fail _ => [] | Seq p q => steps p ++ steps q | Unint p => steps p end.
(** No further block inside; nothing raises. *)
Inductive flat : prog -> Prop :=
| flat_step k : flat (Step k)
| flat_fail k : flat (Fail k)
| flat_seq p q : flat p -> flat q -> flat (Seq p q).
Inductive calm : prog -> Prop :=
| calm_step k : calm (Step k)
| calm_seq p q : calm p -> calm q -> calm (Seq p q).
(** An interrupt arrives at one of the delivery points [a], ..., [b - 1]. *)
Definition arrives (sched : nat -> bool) (a b : nat) : Prop := exists t, a <= t < b /\ sched t = true.

(** ** Lemmas *)
Lemma nth_put {A} i (x : A) l j d : i < List.length l -> nth j (put i x l) d = if Nat.eq_dec j i then x else nth j l d.
Proof.
  revert i j. induction l as [|y l IH]; intros i j Hi; [cbn in Hi; lia|]. destruct i as [|i]; cbn [put].
  - destruct j; reflexivity.
  - destruct j as [|j]; [reflexivity|]. cbn [List.length] in Hi. cbn [nth]. rewrite IH by lia.
    destruct (Nat.eq_dec j i) as [H1|H1]; destruct (Nat.eq_dec (S j) (S i)) as [H2|H2]; first [reflexivity|exfalso; lia].
Qed.
Lemma length_put {A} i (x : A) l : List.length (put i x l) = List.length l.
Proof. revert i. induction l as [|y l IH]; intros [|i]; cbn; auto. Qed.
Lemma arrives_split sched a b c : a <= b <= c -> arrives sched a c <-> arrives sched a b \/ arrives sched b c.
Proof.
  intros H. split.
  - intros (t & Ht & Hs). destruct (le_lt_dec b t); [right|left]; exists t; split; auto; lia.
  - intros [(t & Ht & Hs)|(t & Ht & Hs)]; exists t; split; auto; lia.
Qed.
Lemma arrives_nil sched a : ~ arrives sched a a.
Proof. intros (t & Ht & _). lia. Qed.
Lemma arrives_one sched a : arrives sched a (S a) <-> sched a = true.
Proof. split; [intros (t & Ht & Hs); replace a with t by lia; assumption|intros H; exists a; split; [lia|assumption]]. Qed.

(** What holds while tracker [i] is the handler: nothing raises but the program itself, and the tracker's value is
    set exactly if an interrupt arrived. *)
Definition tracked (sched : nat -> bool) (i : nat) (s s' : ist) : Prop :=
  i_hnd s' = HTrack i /\ i_now s <= i_now s' /\ List.length (i_seen s') = List.length (i_seen s) /\
  (nth i (i_seen s') false = true <-> nth i (i_seen s) false = true \/ arrives sched (i_now s) (i_now s')) /\
  (forall j, j <> i -> nth j (i_seen s') false = nth j (i_seen s) false).
Lemma tracked_refl sched i s : i_hnd s = HTrack i -> tracked sched i s s.
Proof. intros H. repeat split; auto; [intros [H1|H1]; [assumption|destruct (arrives_nil _ _ H1)]]. Qed.
Lemma tracked_trans sched i a b c : tracked sched i a b -> tracked sched i b c -> tracked sched i a c.
Proof.
  intros (H1 & H2 & H3 & H4 & H5) (G1 & G2 & G3 & G4 & G5). repeat split; [assumption|lia|congruence| | |].
  - intros H. apply G4 in H as [H|H]; [apply H4 in H as [H|H]; [left; assumption|]|]; right; apply (arrives_split sched _ (i_now b)); auto.
  - intros H. apply G4. destruct H as [H|H]; [left; apply H4; left; assumption|].
    apply (arrives_split sched _ (i_now b)) in H as [H|H]; [left; apply H4; right; assumption|right; assumption|lia].
  - intros j Hj. rewrite G5, H5 by assumption. reflexivity.
Qed.
Lemma tick_tracked sched i s : i_hnd s = HTrack i -> i < List.length (i_seen s) ->
  exists s', tick sched s = (None, s') /\ tracked sched i s s' /\ i_done s' = i_done s /\ i_now s' = S (i_now s).
Proof.
  intros Hh Hi. unfold tick. rewrite Hh. cbn [i_now i_hnd i_seen i_done]. destruct (sched (i_now s)) eqn:Es; eexists; (split; [reflexivity|]); (split; [|split; reflexivity]).
  - repeat split; cbn [i_now i_hnd i_seen i_done]; try lia.
    + apply length_put.
    + intros _. right. apply arrives_one. assumption.
    + intros _. rewrite nth_put by assumption. destruct (Nat.eq_dec i i); [reflexivity|congruence].
    + intros j Hj. rewrite nth_put by assumption. destruct (Nat.eq_dec j i); [congruence|reflexivity].
  - repeat split; cbn [i_now i_hnd i_seen i_done]; try lia; auto.
    intros [H|H]; [assumption|]. apply arrives_one in H. congruence.
Qed.
Lemma run_tracked sched i p : flat p -> forall s, i_hnd s = HTrack i -> i < List.length (i_seen s) ->
  exists r s', run sched p s = (r, s') /\ tracked sched i s s' /\ r <> Some KeyboardInterrupt /\
    (calm p -> r = None /\ i_done s' = i_done s ++ steps p).
Proof.
  induction 1 as [k|k|p q Hp IHp Hq IHq]; intros s Hh Hi; cbn [run].
  - destruct (tick_tracked sched i s Hh Hi) as (s1 & -> & Ht & Hd & _). eexists _, _. split; [reflexivity|]. split; [exact Ht|].
    split; [discriminate|]. intros _. cbn. rewrite Hd. auto.
  - destruct (tick_tracked sched i s Hh Hi) as (s1 & -> & Ht & Hd & _). eexists _, _. split; [reflexivity|]. split; [exact Ht|].
    split; [discriminate|]. intros Hc. inversion Hc.
  - destruct (IHp s Hh Hi) as (r & s1 & -> & Ht & Hr & Hc). destruct r as [e|].
    + eexists _, _. split; [reflexivity|]. split; [exact Ht|]. split; [exact Hr|]. intros Hcq. inversion Hcq; subst. destruct (Hc ltac:(assumption)); discriminate.
    + pose proof Ht as (Hh1 & _ & Hl1 & _). destruct (IHq s1 Hh1 ltac:(lia)) as (r2 & s2 & -> & Ht2 & Hr2 & Hc2).
      eexists _, _. split; [reflexivity|]. split; [eapply tracked_trans; eassumption|]. split; [exact Hr2|].
      intros Hcq. inversion Hcq; subst. destruct (Hc ltac:(assumption)) as [_ Hd1]. destruct (Hc2 ltac:(assumption)) as [-> Hd2].
      rewrite Hd2, Hd1. cbn [steps]. rewrite app_assoc. auto.
Qed.
Lemma tick_quiet sched s : sched (i_now s) = false -> tick sched s = (None, mkIst (S (i_now s)) (i_hnd s) (i_seen s) (i_done s)).
Proof. intros H. unfold tick. rewrite H. reflexivity. Qed.

Lemma run_calm_now sched p : calm p -> forall s0 s1, run sched p s0 = (None, s1) -> i_now s1 = i_now s0 + List.length (steps p).
Proof.
  induction 1 as [k|p q Hp IHp Hq IHq]; intros s0 s1 H; cbn [run steps] in *.
  - unfold tick in H. destruct (sched (i_now s0)); [destruct (i_hnd s0)|]; try discriminate; injection H as <-; cbn; lia.
  - destruct (run sched p s0) as [[e|] s2] eqn:E1; [discriminate|]. rewrite (IHq _ _ H), (IHp _ _ E1), app_length. lia.
Qed.

(** ** C53 *)
(** No interrupt before the block is entered.  All steps of the block are executed whenever interrupts arrive; the
    previous handler is back; and KeyboardInterrupt is raised after the block exactly if an interrupt arrived
    since (an interrupt that arrives after the restoration is the previous handler's). *)
Theorem C53_block_completes : forall sched p s, calm p -> sched (i_now s) = false ->
  exists r s', run sched (Unint p) s = (r, s') /\
    i_done s' = i_done s ++ steps p /\ i_hnd s' = i_hnd s /\ i_now s' = S (S (S (i_now s) + List.length (steps p))) /\
    (r = None \/ r = Some KeyboardInterrupt) /\
    (i_hnd s = HDefault -> (r = Some KeyboardInterrupt <-> arrives sched (S (i_now s)) (i_now s'))) /\
    (i_hnd s = HIgnore -> (r = Some KeyboardInterrupt <-> arrives sched (S (i_now s)) (pred (i_now s')))).
Proof.
  intros sched p s Hp Hq. assert (Hf : flat p) by (clear -Hp; induction Hp; constructor; auto).
  cbn [run]. rewrite tick_quiet by assumption. cbn zeta. cbn [i_now i_hnd i_seen i_done].
  set (id := List.length (i_seen s)). set (s1 := mkIst _ (HTrack id) _ _).
  destruct (run_tracked sched id p Hf s1 eq_refl) as (r & s2 & Hrun & Ht & Hr & Hc).
  { unfold s1. cbn [i_seen]. rewrite app_length. cbn. lia. }
  destruct (Hc Hp) as [-> Hd]. rewrite Hrun. pose proof (run_calm_now sched p Hp _ _ Hrun) as Hn2. cbn [s1 i_now] in Hn2.
  pose proof Ht as (Hh2 & Hle2 & Hl2 & Hv2 & _).
  destruct (tick_tracked sched id s2 Hh2) as (s3 & -> & Ht3 & Hd3 & Hn3).
  { rewrite Hl2. unfold s1. cbn [i_seen]. rewrite app_length. cbn. lia. }
  pose proof (tracked_trans _ _ _ _ _ Ht Ht3) as (_ & Hle & _ & Hv & _).
  assert (Hv' : nth id (i_seen s3) false = true <-> arrives sched (S (i_now s)) (i_now s3)).
  { rewrite Hv. unfold s1 at 1 2. cbn [i_seen i_now]. split; [|auto]. intros [H|H]; [|exact H].
    unfold id in H. rewrite app_nth2, Nat.sub_diag in H by lia. discriminate. }
  assert (Hn3' : S (i_now s3) = S (S (S (i_now s) + List.length (steps p)))) by lia.
  assert (Hdd : i_done s3 = i_done s ++ steps p) by (rewrite Hd3, Hd; reflexivity).
  assert (HA : forall b, b = S (i_now s3) -> (arrives sched (S (i_now s)) b <-> arrives sched (S (i_now s)) (i_now s3) \/ sched (i_now s3) = true)).
  { intros b ->. rewrite (arrives_split sched _ (i_now s3)) by (cbn [s1 i_now] in Hle; lia). rewrite arrives_one. reflexivity. }
  destruct (tick sched (mkIst (i_now s3) (i_hnd s) (i_seen s3) (i_done s3))) as [r4 s4] eqn:E4.
  unfold tick in E4. cbn [i_now i_hnd i_seen i_done] in E4.
  destruct (sched (i_now s3)) eqn:Es; [destruct (i_hnd s) as [| |j] eqn:Eh|]; injection E4 as <- <-; cbn [i_seen].
  - eexists _, _. split; [reflexivity|]. cbn [i_done i_hnd i_now]. split; [assumption|]. split; [reflexivity|]. split; [assumption|]. split; [auto|].
    split; [|discriminate]. intros _. split; [intros _; apply (HA _ eq_refl); auto|auto].
  - destruct (nth id (i_seen s3) false) eqn:En; eexists _, _; (split; [reflexivity|]); cbn [i_done i_hnd i_now];
      (split; [assumption|]); (split; [reflexivity|]); (split; [assumption|]); (split; [auto|]).
    + split; [discriminate|]. intros _. split; [intros _; apply Hv'; reflexivity|auto].
    + split; [discriminate|]. intros _. split; [discriminate|]. intros H. apply Hv' in H. discriminate.
  - destruct (nth id (put j true (i_seen s3)) false) eqn:En; eexists _, _; (split; [reflexivity|]); cbn [i_done i_hnd i_now];
      (split; [assumption|]); (split; [reflexivity|]); (split; [assumption|]); (split; [auto|]); split; discriminate.
  - destruct (nth id (i_seen s3) false) eqn:En; eexists _, _; (split; [reflexivity|]); cbn [i_done i_hnd i_now];
      (split; [assumption|]); (split; [reflexivity|]); (split; [assumption|]); (split; [auto|]).
    + split; (intros _; split; [intros _; try (apply (HA _ eq_refl); left); apply Hv'; reflexivity|auto]).
    + split; (intros _; split; [discriminate|]; intros H; exfalso).
      * apply (HA _ eq_refl) in H as [H|H]; [apply Hv' in H|]; discriminate.
      * apply Hv' in H; discriminate.
Qed.
(** An exception of the block's own code leaves the tracker installed: that exception propagates, interrupts that
    arrived in the block are not reported, and no interrupt has an effect on anything that runs afterwards. *)
Theorem C53_exception_loses_interrupts : forall sched p k q s, calm p -> flat q -> sched (i_now s) = false ->
  exists s', run sched (Unint (Seq p (Fail k))) s = (Some (UserError k), s') /\
    i_hnd s' = HTrack (List.length (i_seen s)) /\
    exists r s2, run sched q s' = (r, s2) /\ r <> Some KeyboardInterrupt /\ i_hnd s2 = i_hnd s' /\
      (calm q -> r = None /\ i_done s2 = i_done s' ++ steps q).
Proof.
  intros sched p k q s Hp Hq Hs. assert (Hf : flat p) by (clear -Hp; induction Hp; constructor; auto).
  cbn [run]. rewrite tick_quiet by assumption. cbn zeta. cbn [i_now i_hnd i_seen i_done].
  set (id := List.length (i_seen s)). set (s1 := mkIst _ (HTrack id) _ _).
  assert (Hi1 : id < List.length (i_seen s1)) by (unfold s1; cbn [i_seen]; rewrite app_length; cbn; lia).
  destruct (run_tracked sched id p Hf s1 eq_refl Hi1) as (r & s2 & Hrun & Ht & Hr & Hc).
  destruct (Hc Hp) as [-> Hd]. rewrite Hrun. pose proof Ht as (Hh2 & _ & Hl2 & _).
  destruct (tick_tracked sched id s2 Hh2 ltac:(lia)) as (s3 & -> & (Hh3 & _ & Hl3 & _) & _).
  exists s3. split; [reflexivity|]. split; [exact Hh3|].
  destruct (run_tracked sched id q Hq s3 Hh3 ltac:(lia)) as (r4 & s4 & Hr4 & (Hh4 & _) & Hn4 & Hc4).
  exists r4, s4. split; [exact Hr4|]. split; [exact Hn4|]. split; [congruence|exact Hc4].
Qed.
(** Blocks do not nest: an interrupt arriving in an inner block interrupts the outer one after it, and leaves the
    outer tracker installed. *)
Theorem C53_inner_block_interrupts_outer : forall sched p q s, calm p -> sched (i_now s) = false -> sched (S (i_now s)) = false ->
  arrives sched (S (S (i_now s))) (S (S (S (i_now s) + List.length (steps p)))) ->
  exists s', run sched (Unint (Seq (Unint p) q)) s = (Some KeyboardInterrupt, s') /\
    i_done s' = i_done s ++ steps p /\ i_hnd s' = HTrack (List.length (i_seen s)).
Proof.
  intros sched p q s Hp Hs1 Hs2 Ha. assert (Hf : flat p) by (clear -Hp; induction Hp; constructor; auto).
  cbn [run]. rewrite tick_quiet by assumption. cbn zeta. cbn [i_now i_hnd i_seen i_done].
  rewrite tick_quiet by assumption. cbn [i_now i_hnd i_seen i_done].
  set (o := List.length (i_seen s)). set (id := List.length (i_seen s ++ [false])). set (s1 := mkIst _ (HTrack id) _ _).
  assert (Hid : id = S o) by (unfold id, o; rewrite app_length; cbn; lia).
  assert (Hl1 : List.length (i_seen s1) = S id) by (unfold s1, id; cbn [i_seen]; rewrite !app_length; cbn; lia).
  destruct (run_tracked sched id p Hf s1 eq_refl ltac:(lia)) as (r & s2 & Hrun & Ht & Hr & Hc).
  destruct (Hc Hp) as [-> Hd]. rewrite Hrun. pose proof Ht as (Hh2 & _ & Hl2 & _).
  destruct (tick_tracked sched id s2 Hh2 ltac:(lia)) as (s3 & -> & Ht3 & Hd3 & Hn3).
  pose proof (tracked_trans _ _ _ _ _ Ht Ht3) as (Hh3 & Hle3 & Hl3 & Hv3 & _).
  assert (Hn2 : i_now s2 = i_now s1 + List.length (steps p)).
  { exact (run_calm_now sched p Hp _ _ Hrun). }
  assert (Hv : nth id (i_seen s3) false = true).
  { apply Hv3. right. cbn [s1 i_now]. rewrite Hn3, Hn2. cbn [s1 i_now]. destruct Ha as (t & Ht1 & Ht2). exists t. split; [lia|assumption]. }
  destruct (tick_tracked sched o (mkIst (i_now s3) (HTrack o) (i_seen s3) (i_done s3)) eq_refl) as (s4 & -> & (Hh4 & _ & _ & _ & Hv4) & Hd4 & _).
  { cbn [i_seen]. rewrite Hl3. lia. }
  rewrite Hv4 by lia. cbn [i_seen]. rewrite Hv. exists s4. split; [reflexivity|]. split; [|exact Hh4].
  rewrite Hd4. cbn [i_done]. rewrite Hd3, Hd. reflexivity.
Qed.

Example C53_example :
  let sched t := Nat.eqb t 2 in
  let s := mkIst 0 HDefault [] [] in
  let p := Seq (Step 1) (Seq (Step 2) (Step 3)) in
  calm p /\ sched 0 = false /\ arrives sched 1 6 /\ arrives sched 2 6 /\
  run sched (Unint p) s = (Some KeyboardInterrupt, mkIst 6 HDefault [true] [1; 2; 3]) /\
  run sched (Unint (Seq p (Fail 7))) s = (Some (UserError 7), mkIst 5 (HTrack 0) [true] [1; 2; 3]) /\
  run sched p s = (Some KeyboardInterrupt, mkIst 3 HDefault [] [1; 2]) /\
  run sched (Unint (Seq (Unint p) (Step 4))) s = (Some KeyboardInterrupt, mkIst 7 (HTrack 0) [false; true] [1; 2; 3]).
Proof. repeat split; try (repeat constructor); try (exists 2; split; [lia|reflexivity]). Qed.

Print Assumptions C53_block_completes.
Print Assumptions C53_exception_loses_interrupts.
Print Assumptions C53_inner_block_interrupts_outer.
