(** C54: log layers and level contexts. *)
From Coq Require Import List Bool Arith Lia.
From Verif Require Import LogModel.
Import ListNotations.

(** ** Specification *)
(** [ends p r k j]: program [p] ends, by an exception if [r], and on the way exceptions leave [k] layers and [j] level contexts. *)
Inductive ends : lprog -> bool -> nat -> nat -> Prop :=
| e_skip : ends PSkip false 0 0
| e_msg : ends PMsg false 0 0
| e_raise : ends PRaise true 0 0
| e_seq1 p q k j : ends p true k j -> ends (PSeq p q) true k j
| e_seq2 p q r k j k' j' : ends p false k j -> ends q r k' j' -> ends (PSeq p q) r (k + k') (j + j')
| e_catch p r k j : ends p r k j -> ends (PCatch p) false k j
| e_layer1 o p k j : ends p false k j -> ends (PLayer o p) false k j
| e_layer2 o p k j : ends p true k j -> ends (PLayer o p) true (S k) j
| e_level0 p r k j : ends p r k j -> ends (PLevel None p) r k j
| e_level1 v p k j : ends p false k j -> ends (PLevel (Some v) p) false k j
| e_level2 v p k j : ends p true k j -> ends (PLevel (Some v) p) true k (S j).

(** Every program ends, in one way only. *)
Lemma ends_total p : exists r k j, ends p r k j.
Proof.
  induction p as [| | |p IHp q IHq|p IHp|o p IHp|[v|] p IHp].
  1-3: eexists _, _, _; constructor.
  - destruct IHp as ([|] & k & j & Hp); [eauto using ends|]. destruct IHq as (r & k' & j' & Hq). eauto using ends.
  - destruct IHp as (r & k & j & Hp). eauto using ends.
  - destruct IHp as ([|] & k & j & Hp); eauto using ends.
  - destruct IHp as ([|] & k & j & Hp); eauto using ends.
  - destruct IHp as (r & k & j & Hp). eauto using ends.
Qed.

Lemma removelast_app_ne {A} (a b : list A) : b <> [] -> removelast (a ++ b) = a ++ removelast b.
Proof. apply removelast_app. Qed.
Lemma length_removelast {A} (l : list A) : List.length (removelast l) = pred (List.length l).
Proof. induction l as [|x l IH]; [reflexivity|]. destruct l; [reflexivity|]. cbn [removelast List.length] in *. rewrite IH. reflexivity. Qed.

(** ** C54 *)
(** However layers, contexts and handlers are nested: the stack keeps what it held, followed by one entry for each
    layer that an exception left.  (Which entries these are is not determined by the layers left: a layer that ends
    normally pops the latest stale entry instead of its own.) *)
Theorem C54_stale_entries : forall p s r k j, ends p r k j ->
  exists stale s', lrun p s = (r, s') /\ l_stack s' = l_stack s ++ stale /\ List.length stale = k.
Proof.
  intros p s r k j H. revert s. induction H as [| | |p q k j H IH|p q r k j k' j' H IH H' IH'|p r k j H IH|o p k j H IH|o p k j H IH|p r k j H IH|v p k j H IH|v p k j H IH]; intros s; cbn [lrun].
  1-3: exists []; eexists; split; [reflexivity|]; cbn; rewrite app_nil_r; auto.
  - destruct (IH s) as (st & s1 & E1 & E2 & E3). rewrite E1. eauto.
  - destruct (IH s) as (st & s1 & E1 & E2 & E3). rewrite E1. destruct (IH' s1) as (st' & s2 & F1 & F2 & F3). exists (st ++ st'), s2. rewrite F2, E2, app_assoc, app_length. auto.
  - destruct (IH s) as (st & s1 & E1 & E2 & E3). rewrite E1. exists st, s1. auto.
  - destruct (IH (mkLst (l_stack (emit s) ++ [o]) (l_level (emit s)) (l_out (emit s)))) as (st & s1 & E1 & E2 & E3). rewrite E1.
    cbn [emit l_stack] in *. rewrite <- app_assoc in E2.
    exists (removelast ([o] ++ st)). eexists. split; [reflexivity|]. cbn [l_stack]. rewrite E2, removelast_app by discriminate.
    split; [reflexivity|]. rewrite length_removelast. cbn. assumption.
  - destruct (IH (mkLst (l_stack (emit s) ++ [o]) (l_level (emit s)) (l_out (emit s)))) as (st & s1 & E1 & E2 & E3). rewrite E1.
    cbn [emit l_stack] in *. rewrite <- app_assoc in E2. exists ([o] ++ st), s1. cbn [List.length app]. auto.
  - apply IH.
  - destruct (IH (mkLst (l_stack s) v (l_out s))) as (st & s1 & E1 & E2 & E3). rewrite E1. exists st. eexists. split; [reflexivity|]. auto.
  - destruct (IH (mkLst (l_stack s) v (l_out s))) as (st & s1 & E1 & E2 & E3). rewrite E1. exists st. eexists. split; [reflexivity|]. auto.
Qed.
(** No exception leaves a level context: the level is back; one leaves a context directly: its level stays. *)
Theorem C54_level : forall p s r k j, ends p r k j ->
  (j = 0 -> l_level (snd (lrun p s)) = l_level s) /\
  (forall v, r = true -> j = 0 -> l_level (snd (lrun (PLevel (Some v) p) s)) = v).
Proof.
  assert (G : forall p r k j, ends p r k j -> j = 0 -> forall s, fst (lrun p s) = r /\ l_level (snd (lrun p s)) = l_level s).
  { intros p r k j H. induction H as [| | |p q k j H IH|p q r k j k' j' H IH H' IH'|p r k j H IH|o p k j H IH|o p k j H IH|p r k j H IH|v p k j H IH|v p k j H IH]; intros Hj s; cbn [lrun]; try (split; reflexivity); try discriminate.
    - destruct (IH Hj s) as [E1 E2]. destruct (lrun p s) as [b s1]. cbn [fst snd] in *. subst b. auto.
    - destruct (IH ltac:(lia) s) as [E1 E2]. destruct (lrun p s) as [b s1]. cbn [fst snd] in *. subst b. destruct (IH' ltac:(lia) s1) as [F1 F2]. split; [assumption|congruence].
    - destruct (IH Hj s) as [E1 E2]. auto.
    - destruct (IH Hj (mkLst (l_stack (emit s) ++ [o]) (l_level (emit s)) (l_out (emit s)))) as [E1 E2]. destruct (lrun p _) as [b s1]. cbn [fst snd] in *. subst b. auto.
    - destruct (IH Hj (mkLst (l_stack (emit s) ++ [o]) (l_level (emit s)) (l_out (emit s)))) as [E1 E2]. destruct (lrun p _) as [b s1]. cbn [fst snd] in *. subst b. auto.
    - apply IH; assumption.
    - destruct (IH Hj (mkLst (l_stack s) v (l_out s))) as [E1 E2]. destruct (lrun p _) as [b s1]. cbn [fst snd] in *. subst b. auto. }
  intros p s r k j H. split; [intros Hj; apply (G p r k j H Hj)|].
  intros v -> Hj. cbn [lrun]. destruct (G p true k j H Hj (mkLst (l_stack s) v (l_out s))) as [E1 E2]. destruct (lrun p _) as [b s1]. cbn [fst snd] in *. subst b. exact E2.
Qed.
(** Hence one message after a program with [k] layers left by exceptions is indented by [k] more than before it. *)
Theorem C54_indentation : forall p s k j, ends p false k j ->
  match l_out (snd (lrun (PSeq PMsg (PSeq p PMsg)) s)), l_out (snd (lrun PMsg s)) with
  | after :: _, before :: _ => after = before + k
  | _, _ => False
  end.
Proof.
  intros p s k j H. cbn [lrun]. destruct (C54_stale_entries p (emit s) false k j H) as (st & s1 & E1 & E2 & E3). rewrite E1. cbn [emit l_out snd l_stack] in *.
  rewrite E2, app_length, E3. reflexivity.
Qed.
Example C54_example :
  let p := PCatch (PLayer 1 (PLevel (Some 10) (PLayer 2 (PSeq PMsg PRaise)))) in
  ends p false 2 1 /\ ends (PLayer 7 p) false 2 1 /\
  lrun p (mkLst [0] 30 []) = (false, mkLst [0; 1; 2] 10 [3; 2; 1]) /\
  l_stack (snd (lrun (PLayer 7 p) (mkLst [] 30 []))) = [7; 1] /\
  ends (PLevel (Some 10) (PLayer 2 PMsg)) false 0 0.
Proof.
  assert (H : ends (PSeq PMsg PRaise) true 0 0) by (apply (e_seq2 PMsg PRaise true 0 0 0 0); constructor).
  cbn zeta. split; [apply (e_catch _ true); apply e_layer2, e_level2, e_layer2; exact H|].
  split; [apply e_layer1; apply (e_catch _ true); apply e_layer2, e_level2, e_layer2; exact H|]. repeat split; repeat constructor.
Qed.

Print Assumptions C54_stale_entries.
Print Assumptions C54_level.
Print Assumptions C54_indentation.
