(** C114: what the level of the logger changes. *)
From Coq Require Import List Bool Arith Lia.
From Verif Require Import LevelModel.
Import ListNotations.

(** ** Specification *)
(** The program does not touch levels; it does not call [debug]. *)
Fixpoint keeps_level (p : prog) : Prop :=
  match p with
  | PSeq p q => keeps_level p /\ keeps_level q
  | PCatch p | PLayer _ _ p | PContext None p => keeps_level p
  | PContext (Some _) _ | PSetLevel _ => False
  | _ => True
  end.
Fixpoint no_debug (p : prog) : Prop :=
  match p with
  | PMsg k _ => k <> KDebug
  | PSeq p q => no_debug p /\ no_debug q
  | PCatch p | PLayer _ _ p | PContext _ p => no_debug p
  | _ => True
  end.
Definition at_least (n : nat) (l : list entry) : list entry := filter (fun e => n <=? e_level e) l.
(** The level in a context. *)
Inductive stands_for : arg -> nat -> Prop :=
| for_true : stands_for (ABool true) 20 | for_false : stands_for (ABool false) 30
| for_one : stands_for (ANum 1) 20 | for_zero : stands_for (ANum 0) 30
| for_other n : 2 <= n -> stands_for (ANum n) n.

(** The levels of the methods: DEBUG, INFO, WARNING and ERROR of the standard library. *)
Inductive logs_at : kind -> nat -> Prop :=
| at_debug : logs_at KDebug 10
| at_info k : In k [KInfo; KEmphasize; KIo; KHeader] -> logs_at k 20
| at_warning : logs_at KWarning 30
| at_error k : In k [KError; KException] -> logs_at k 40.

(** ** One message *)
(** A message is shown exactly if its level is not below that of the logger; [debug] shows nothing, and raises exactly if debug
    messages are to be shown. *)
Theorem C114_message : forall k n m s, logs_at k n ->
  (fst (log k m s) = true <-> k = KDebug /\ effective s <= 10)
  /\ (s_out (snd (log k m s)) = s_out s ++ (if effective s <=? n then match k with KDebug => [] | _ => [mkE n (length (s_stack s)) m] end else []))
  /\ s_level (snd (log k m s)) = s_level s /\ s_stack (snd (log k m s)) = s_stack s.
Proof.
  intros k n m s A. assert (n = severity k) as ->.
  { destruct A as [|k I| |k I]; try reflexivity; cbn in I; repeat destruct I as [<-|I]; try reflexivity; destruct I. }
  clear A. unfold log. destruct (effective s <=? severity k) eqn:E.
  - apply Nat.leb_le in E. destruct k; cbn in *; rewrite ?app_nil_r; repeat split; try discriminate; try tauto; intros [X _]; discriminate.
  - apply Nat.leb_gt in E. cbn. rewrite app_nil_r. repeat split; try discriminate. intros [-> X]. cbn in E. lia.
Qed.
Print Assumptions C114_message.
Lemma every_kind k : exists n, logs_at k n.
Proof. destruct k; eexists; (apply at_debug || apply at_warning || (apply at_info; cbn; tauto) || (apply at_error; cbn; tauto)). Qed.

Lemma log_level k m s : s_level (snd (log k m s)) = s_level s /\ s_root (snd (log k m s)) = s_root s /\ s_stack (snd (log k m s)) = s_stack s.
Proof. unfold log. destruct (effective s <=? severity k), k; cbn; auto. Qed.

(** No program ever shows a debug message. *)
Lemma log_debug k m s : (forall e, In e (s_out s) -> e_level e <> 10) -> forall e, In e (s_out (snd (log k m s))) -> e_level e <> 10.
Proof.
  intros H e. unfold log. destruct (effective s <=? severity k); [|apply H].
  destruct k; cbn; try apply H; intros I; apply in_app_iff in I as [I|[<-|[]]]; auto; cbn; discriminate.
Qed.
Theorem C114_never_debug : forall p s, (forall e, In e (s_out s) -> e_level e <> 10) -> forall e, In e (s_out (snd (run p s))) -> e_level e <> 10.
Proof.
  induction p as [| k m | | p IHp q IHq | p IH | o m p IH | a p IH | n]; intros s H; cbn [run]; auto.
  - exact (log_debug k m s H).
  - specialize (IHp s H). destruct (run p s) as [[] s1]; cbn [snd] in *; [exact IHp|exact (IHq s1 IHp)].
  - exact (IH s H).
  - set (s1 := snd (log KHeader m s)). assert (H1 := log_debug KHeader m s H). fold s1 in H1.
    specialize (IH (set_stack (s_stack s1 ++ [o]) s1) H1). destruct (run p _) as [[] s2]; cbn [snd] in *; [exact IH|]. exact (log_debug KHeader m (set_stack (removelast (s_stack s2)) s2) IH).
  - destruct a as [a|]; [|exact (IH s H)]. specialize (IH (set_level (level_of a) s) H). destruct (run p _) as [[] s2]; cbn in *; exact IH.
Qed.
Print Assumptions C114_never_debug.

(** ** Levels only hide *)
Definition eff (a r : nat) : nat := match a with 0 => r | S _ => a end.
Lemma effective_eq s : effective s = eff (s_level s) (s_root s).
Proof. unfold effective, eff. destruct (s_level s); reflexivity. Qed.
Definition same (a b r1 r2 : nat) (s1 s2 : st) : Prop :=
  s_level s1 = a /\ s_level s2 = b /\ s_root s1 = r1 /\ s_root s2 = r2 /\ s_stack s1 = s_stack s2
  /\ s_out s2 = at_least (effective s2) (s_out s1).
Lemma at_least_app n a b : at_least n (a ++ b) = at_least n a ++ at_least n b.
Proof. apply filter_app. Qed.
Lemma same_effective a b r1 r2 s1 s2 : same a b r1 r2 s1 s2 -> effective s1 = eff a r1 /\ effective s2 = eff b r2.
Proof. intros (A & B & C & D & _). subst a b r1 r2. split; apply effective_eq. Qed.
Lemma log_same a b r1 r2 k m s1 s2 : (eff a r1) <= (eff b r2) ->
  (k = KDebug -> 10 < eff a r1) -> same a b r1 r2 s1 s2 ->
  fst (log k m s1) = fst (log k m s2) /\ same a b r1 r2 (snd (log k m s1)) (snd (log k m s2)).
Proof.
  intros L D S. destruct (same_effective _ _ _ _ _ _ S) as [E1 E2]. destruct S as (A & B & C & F & G & H). unfold log. rewrite E1, E2.
  set (x := eff a r1) in *. set (y := eff b r2) in *.
  assert (Ee : forall o1 o2 t, same a b r1 r2 (mkS (s_level s1) (s_root s1) t o1) (mkS (s_level s2) (s_root s2) t o2) <-> o2 = at_least y o1).
  { intros o1 o2 t. unfold same. rewrite effective_eq. cbn. rewrite A, B, C, F. fold y. tauto. }
  assert (S : same a b r1 r2 s1 s2) by (unfold same; rewrite <- H; auto 10).
  destruct (Nat.leb_spec x (severity k)) as [Lx|Lx], (Nat.leb_spec y (severity k)) as [Ly|Ly]; try lia.
  - destruct k; try (exfalso; specialize (D eq_refl); cbn in Lx; lia); (split; [reflexivity|]); cbn [snd]; unfold emit; rewrite <- G;
      apply Ee; rewrite at_least_app, H, E2; f_equal; cbn; apply Nat.leb_le in Ly; cbn in Ly; rewrite Ly; reflexivity.
  - assert (N : k <> KDebug) by (intros ->; specialize (D eq_refl); cbn in Lx; lia).
    destruct k; try congruence; (split; [reflexivity|]); cbn [snd]; unfold emit; destruct s2 as [l2 q2 t2 o2]; cbn [s_level s_root s_stack s_out] in *;
      rewrite G; apply (proj2 (Ee _ _ _)); rewrite at_least_app, H, E2; cbn; apply Nat.leb_gt in Ly; cbn in Ly; rewrite Ly; rewrite app_nil_r; reflexivity.
  - split; [reflexivity|exact S].
Qed.
Lemma stack_same a b r1 r2 l s1 s2 : same a b r1 r2 s1 s2 -> same a b r1 r2 (set_stack l s1) (set_stack l s2).
Proof. unfold same. rewrite !effective_eq. cbn. tauto. Qed.
Lemma run_same a b r1 r2 p : (eff a r1) <= (eff b r2) ->
  keeps_level p -> (no_debug p \/ 10 < eff a r1) -> forall s1 s2, same a b r1 r2 s1 s2 ->
  fst (run p s1) = fst (run p s2) /\ same a b r1 r2 (snd (run p s1)) (snd (run p s2)).
Proof.
  intros L. induction p as [| k m | | p IHp q IHq | p IH | o m p IH | [x|] p IH | n]; intros K D s1 s2 S; cbn [run]; cbn in K, D; try contradiction; auto.
  - apply log_same; auto. intros ->. destruct D; [congruence|assumption].
  - destruct K as [K1 K2]. assert (D1 : no_debug p \/ 10 < eff a r1) by tauto. assert (D2 : no_debug q \/ 10 < eff a r1) by tauto.
    destruct (IHp K1 D1 s1 s2 S) as [E S']. destruct (run p s1) as [x1 t1], (run p s2) as [x2 t2]. cbn in E, S'. subst x2. destruct x1; [auto|]. apply IHq; auto.
  - destruct (IH K D s1 s2 S) as [_ S']. cbn. auto.
  - destruct (log_same a b r1 r2 KHeader m s1 s2 L ltac:(discriminate) S) as [_ S1].
    set (t1 := snd (log KHeader m s1)) in *. set (t2 := snd (log KHeader m s2)) in *.
    assert (G : s_stack t1 = s_stack t2) by apply S1. rewrite <- G.
    destruct (IH K D _ _ (stack_same _ _ _ _ (s_stack t1 ++ [o]) _ _ S1)) as [E S2].
    destruct (run p (set_stack _ t1)) as [x1 u1], (run p (set_stack _ t2)) as [x2 u2]. cbn in E, S2. subst x2. destruct x1; [auto|].
    split; [reflexivity|]. cbn [snd]. assert (G2 : s_stack u1 = s_stack u2) by apply S2. rewrite <- G2.
    apply log_same; [exact L|discriminate|]. apply stack_same. exact S2.
Qed.

(** A program that does not touch levels does the same at every level, and at a higher one shows exactly those of the messages that
    have this level, in the same layers; if it calls [debug], as long as debug messages are not to be shown. *)
Theorem C114_only_hides : forall p a b r stack, keeps_level p ->
  let s l := mkS l r stack [] in
  effective (s a) <= effective (s b) -> no_debug p \/ 10 < effective (s a) ->
  fst (run p (s a)) = fst (run p (s b))
  /\ s_stack (snd (run p (s a))) = s_stack (snd (run p (s b)))
  /\ s_out (snd (run p (s b))) = at_least (effective (s b)) (s_out (snd (run p (s a)))).
Proof.
  intros p a b r stack K s L D.
  rewrite !effective_eq in *. cbn [s s_level s_root] in L, D |- *.
  destruct (run_same a b r r p L K D (s a) (s b)) as [E S]; [unfold same; cbn; auto 10|].
  destruct (same_effective _ _ _ _ _ _ S) as [_ E2]. destruct S as (_ & _ & _ & _ & G & H). rewrite E2 in H. auto.
Qed.
Print Assumptions C114_only_hides.

(** With debug messages to be shown it is different: the call raises. *)
Theorem C114_debug_level_refuted : exists p, keeps_level p /\ fst (run p (mkS 10 30 [] [])) <> fst (run p (mkS 20 30 [] [])).
Proof. exists (PMsg KDebug 0). split; [exact I|discriminate]. Qed.
Print Assumptions C114_debug_level_refuted.

(** ** Contexts *)
Lemma level_of_spec x n : stands_for x n -> level_of x = n.
Proof. intros []; try reflexivity. unfold level_of, key_eq. destruct n0 as [|[|n0]]; [lia|lia|reflexivity]. Qed.
Lemma stands_total x : exists n, stands_for x n.
Proof. destruct x as [[]|[|[|n]]]; eexists; constructor; lia. Qed.
(** The level in a context is never NOTSET: 0 means the same as [False], 1 the same as [True].  A program in it does what it
    does at this level; without an error the level is as before, with one it stays. *)
Theorem C114_context : forall x n p s, stands_for x n ->
  let r := run p (set_level n s) in
  fst (run (PContext (Some x) p) s) = fst r
  /\ s_out (snd (run (PContext (Some x) p) s)) = s_out (snd r)
  /\ s_stack (snd (run (PContext (Some x) p) s)) = s_stack (snd r)
  /\ s_level (snd (run (PContext (Some x) p) s)) = (if fst r then s_level (snd r) else s_level s).
Proof.
  intros x n p s H r. cbn [run]. rewrite (level_of_spec x n H). fold r. destruct r as [[] s2]; cbn; auto.
Qed.
Print Assumptions C114_context.
Theorem C114_context_never_notset : forall x s, effective (set_level (level_of x) s) = level_of x /\ 2 <= level_of x /\ stands_for x (level_of x).
Proof.
  intros x s. destruct (stands_total x) as [n H]. rewrite (level_of_spec x n H). unfold effective. cbn. destruct H; repeat split; try lia; try constructor; auto.
  destruct n as [|n]; [lia|reflexivity].
Qed.
Print Assumptions C114_context_never_notset.

(** ** Examples *)
Definition ex_prog := PSeq (PLayer 1 5 (PSeq (PMsg KInfo 6) (PMsg KWarning 7))) (PCatch (PSeq (PMsg KError 8) PRaise)).
Example C114_example : keeps_level ex_prog /\ no_debug ex_prog
  /\ s_out (snd (run ex_prog (mkS 20 30 [] []))) = [mkE 20 0 5; mkE 20 1 6; mkE 30 1 7; mkE 20 0 5; mkE 40 0 8]
  /\ s_out (snd (run ex_prog (mkS 0 30 [] []))) = [mkE 30 1 7; mkE 40 0 8].
Proof. cbn. repeat split; discriminate. Qed.
Example C114_example_context : stands_for (ANum 0) 30
  /\ s_out (snd (run (PContext (Some (ANum 0)) (PMsg KInfo 1)) (mkS 20 30 [] []))) = []
  /\ run (PContext (Some (ABool true)) (PMsg KInfo 1)) (mkS 30 30 [] []) = (false, mkS 30 30 [] [mkE 20 0 1]).
Proof. repeat split. constructor. Qed.
Example C114_example_debug : fst (log KDebug 1 (mkS 10 30 [] [])) = true /\ log KDebug 1 (mkS 20 30 [] []) = (false, mkS 20 30 [] []).
Proof. split; reflexivity. Qed.
