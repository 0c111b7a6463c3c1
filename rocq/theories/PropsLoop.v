(** C59: resuming interrupted loops. *)
From Coq Require Import List Arith Bool Lia.
From Verif Require Import LoopModel.
Import ListNotations.

(** ** Specification *)
(** All actions of a program, in order. *)
Fixpoint actions (s : step) : list nat :=
  match s with Act a => [a] | For items => flat_map (flat_map actions) items end.
(** Loops nested in one another: the body for an item is one action or one further loop. *)
Inductive nested : step -> Prop :=
| nested_act a : nested (Act a)
| nested_for items : (forall b, In b items -> exists s, b = [s] /\ nested s) -> nested (For items).

(** ** Proof *)
Lemma step_ind2 (P : step -> Prop) : (forall a, P (Act a)) -> (forall items, Forall (Forall P) items -> P (For items)) -> forall s, P s.
Proof.
  intros HA HF. fix IH 1. intros [a|items]; [apply HA|]. apply HF.
  induction items as [|b items IHi]; constructor; [|exact IHi].
  induction b as [|s b IHb]; constructor; [apply IH|exact IHb].
Qed.

(** The actions left when the open loops have done so many items each. *)
Fixpoint rest (ks : list nat) (s : step) : list nat :=
  match ks, s with
  | [], _ => actions s
  | k :: ks, Act a => [a]
  | k :: ks, For items =>
      match skipn k items with
      | [s] :: r => rest ks s ++ flat_map (flat_map actions) r
      | b :: r => flat_map actions b ++ flat_map (flat_map actions) r
      | [] => []
      end
  end.
(** The numbers belong to open loops of the program. *)
Fixpoint path (ks : list nat) (s : step) : Prop :=
  match ks, s with
  | [], _ => True
  | k :: ks, Act a => False
  | k :: ks, For items => exists s1 r, skipn k items = [s1] :: r /\ path ks s1
  end.

Lemma body_one r s m g : body_of r [s] m g = r s m g.
Proof. cbn. destruct (r s m g) as [[t e] g1]. destruct e; [rewrite app_nil_r|]; reflexivity. Qed.

Definition low (c : nat) (l : list (nat * nat)) : Prop := Forall (fun e => fst e < c) l.
Lemma low_mono c d l : low c l -> c <= d -> low d l.
Proof. intros H Hc. eapply Forall_impl; [|exact H]. intros e He. cbn in He. lia. Qed.
Lemma bump_last id k st c l : low id l -> bump id (mkGen st c (l ++ [(id, k)])) = mkGen st c (l ++ [(id, S k)]).
Proof.
  intros H. unfold bump. cbn [g_state g_count g_index]. f_equal. rewrite map_app. cbn. rewrite Nat.eqb_refl. f_equal.
  induction H as [|e l He Hl IH]; [reflexivity|]. cbn. rewrite IH. destruct (Nat.eqb_spec (fst e) id); [lia|reflexivity].
Qed.
Lemma drop_last id k st c l : low id l -> drop id (mkGen st c (l ++ [(id, k)])) = mkGen st c l.
Proof.
  intros H. unfold drop. cbn [g_state g_count g_index]. f_equal. rewrite filter_app. cbn. rewrite Nat.eqb_refl. cbn. rewrite app_nil_r.
  induction H as [|e l He Hl IH]; [reflexivity|]. cbn. destruct (Nat.eqb_spec (fst e) id); [lia|]. cbn. rewrite IH. reflexivity.
Qed.
Lemma low_snoc id k l : low id l -> low (S id) (l ++ [(id, k)]).
Proof. intros H. apply Forall_app. split; [apply (low_mono id); [exact H|lia]|repeat constructor]. Qed.

(** What a run from [g] leaves when it goes to its end; [own] is the entry of a first loop, which stays. *)
Definition ends (g : gen) (pend : list nat) (own : list (nat * nat)) (g' : gen) : Prop :=
  g_state g' = pend /\ g_count g <= g_count g' /\ g_index g' = g_index g ++ own.

(** The state of a stopped run: the entries of the open loops. *)
Definition open_at (g g' : gen) (ks : list nat) : Prop :=
  exists own, g_index g' = g_index g ++ own /\ map snd own = ks /\ g_state g' = [].

Definition budget (m : option nat) (n : nat) : option nat := match m with None => None | Some k => Some (k - n) end.
Definition enough (m : option nat) (n : nat) : Prop := match m with None => True | Some k => n <= k end.

(** Runs with nothing to skip. *)
Definition plain_run (s : step) : Prop := forall m g, g_state g = [] -> low (g_count g) (g_index g) -> 0 < g_count g ->
  (exists g', run s m g = (actions s, Goes (budget m (length (actions s))), g') /\ ends g [] [] g' /\ enough m (length (actions s))) \/
  (exists t g' ks, run s m g = (t, Stopped, g') /\ open_at g g' ks /\ path ks s /\ t ++ rest ks s = actions s /\ m = Some (length t)).

Lemma gen_eta g : g = mkGen (g_state g) (g_count g) (g_index g). Proof. destruct g. reflexivity. Qed.
Lemma budget_budget m a b : budget (budget m a) b = budget m (a + b).
Proof. destruct m; cbn; [f_equal; lia|reflexivity]. Qed.
Lemma enough_budget m a b : enough m a -> enough (budget m a) b -> enough m (a + b).
Proof. destruct m; cbn; [lia|auto]. Qed.

(** The loop from position [k] on, when the skipped ones are over. *)
Lemma layer_plain id skip keep items l : low id l -> forall k m g, skip <= k ->
  Forall (fun b => exists s, b = [s] /\ plain_run s) items ->
  g_state g = [] -> id < g_count g -> g_index g = l ++ [(id, k)] ->
  (exists g', layer (body_of run) id skip keep items k m g = (flat_map (flat_map actions) items, Goes (budget m (length (flat_map (flat_map actions) items))), g') /\
     g_state g' = [] /\ g_count g <= g_count g' /\ g_index g' = (if keep then l ++ [(id, k + length items)] else l) /\ enough m (length (flat_map (flat_map actions) items))) \/
  (exists t g' j ks s r, layer (body_of run) id skip keep items k m g = (t, Stopped, g') /\ skipn j items = [s] :: r /\ path ks s /\
     (exists own, g_index g' = (l ++ [(id, k + j)]) ++ own /\ map snd own = ks) /\ g_state g' = [] /\
     t ++ rest ks s ++ flat_map (flat_map actions) r = flat_map (flat_map actions) items /\ m = Some (length t)).
Proof.
  intros Hl. induction items as [|b items IH]; intros k m g Hk HF Hst Hc Hix.
  - left. cbn [layer]. exists (if keep then g else drop id g). cbn [flat_map length]. rewrite Nat.add_0_r.
    replace (budget m 0) with m by (destruct m; cbn; [f_equal; lia|reflexivity]). split; [reflexivity|].
    rewrite (gen_eta g), Hst, Hix. destruct keep; [|rewrite drop_last by exact Hl]; cbn; (split; [reflexivity|split; [lia|split; [reflexivity|destruct m; cbn; [lia|exact I]]]]).
  - inversion HF as [|? ? (s & -> & Hs) HF']; subst. cbn [layer]. replace (Nat.leb skip k) with true by (symmetry; apply Nat.leb_le; exact Hk).
    rewrite body_one. destruct (Hs m g Hst) as [(g1 & Hr & (E1 & E2 & E3) & Hen)|(t & g1 & ks & Hr & (own & E1 & E2 & E3) & Hp & Ht & Hm)].
    + rewrite Hix. apply (low_mono (S id)); [apply low_snoc; exact Hl|lia].
    + lia.
    + rewrite Hr. rewrite app_nil_r in E3.
      assert (Hb : bump id g1 = mkGen [] (g_count g1) (l ++ [(id, S k)])).
      { rewrite (gen_eta g1), E1, E3, Hix. cbn [g_count]. rewrite bump_last by exact Hl. reflexivity. }
      rewrite Hb. destruct (IH (S k) (budget m (length (actions s))) (mkGen [] (g_count g1) (l ++ [(id, S k)]))) as
        [(g' & Hg & F1 & F2 & F3 & F4)|(t & g' & j & ks & s' & r & Hg & F1 & F2 & (own & F3 & F4) & F5 & F6 & F7)]; [lia|exact HF'|reflexivity|cbn; lia|reflexivity| |].
      * left. exists g'. fold (layer (body_of run) id skip keep). rewrite Hg. cbn [flat_map]. rewrite app_nil_r, app_length, <- budget_budget.
        split; [reflexivity|]. split; [exact F1|]. split; [cbn in F2; lia|]. split; [|apply enough_budget; assumption].
        rewrite F3. cbn [length]. replace (S k + length items) with (k + S (length items)) by lia. reflexivity.
      * right. exists (actions s ++ t), g', (S j), ks, s', r. fold (layer (body_of run) id skip keep). rewrite Hg.
        split; [reflexivity|]. split; [exact F1|]. split; [exact F2|]. split; [exists own; split; [rewrite F3; replace (S k + j) with (k + S j) by lia; reflexivity|exact F4]|].
        split; [exact F5|]. split; [cbn [flat_map]; rewrite app_nil_r, <- app_assoc, F6; reflexivity|].
        destruct m as [m|]; cbn in F7; [|discriminate]. injection F7 as F7. cbn in Hen. f_equal. rewrite app_length. lia.
    + rewrite Hr. right. exists t, g1, 0, ks, s, items. split; [reflexivity|]. split; [reflexivity|]. split; [exact Hp|].
      split; [exists own; split; [rewrite E1, Hix, Nat.add_0_r; reflexivity|exact E2]|]. split; [exact E3|].
      split; [cbn [flat_map]; rewrite app_nil_r, app_assoc, Ht; reflexivity|exact Hm].
Qed.

Lemma nested_plain s : nested s -> plain_run s.
Proof.
  induction s as [a|items IH] using step_ind2; intros Hn m g Hst Hlow Hc.
  - cbn. destruct m as [[|m]|].
    + right. exists [], g, []. split; [reflexivity|]. split; [exists []; rewrite app_nil_r; auto|]. split; [exact I|]. split; reflexivity.
    + left. exists g. cbn. rewrite Nat.sub_0_r. split; [reflexivity|]. split; [split; [exact Hst|split; [lia|rewrite app_nil_r; reflexivity]]|lia].
    + left. exists g. cbn. split; [reflexivity|]. split; [split; [exact Hst|split; [lia|rewrite app_nil_r; reflexivity]]|exact I].
  - inversion Hn as [|? Hi]; subst.
    assert (HF : Forall (fun b => exists s, b = [s] /\ plain_run s) items).
    { rewrite Forall_forall in IH |- *. intros b Hb. destruct (Hi b Hb) as (s & -> & Hs). exists s. split; [reflexivity|].
      pose proof (IH _ Hb) as Hx. inversion Hx; subst. auto. }
    cbn [run call]. rewrite Hst. cbn [tl]. replace (Nat.eqb (g_count g) 0) with false by (symmetry; apply Nat.eqb_neq; lia).
    destruct (layer_plain (g_count g) 0 false items (g_index g) Hlow 0 m (mkGen [] (S (g_count g)) (g_index g ++ [(g_count g, 0)]))) as
      [(g' & Hg & F1 & F2 & F3 & F4)|(t & g' & j & ks & s' & r & Hg & F1 & F2 & (own & F3 & F4) & F5 & F6 & F7)]; [lia|exact HF|reflexivity|cbn; lia|reflexivity| |].
    + left. exists g'. rewrite Hg. split; [reflexivity|]. split; [split; [exact F1|split; [cbn in F2; lia|rewrite F3, app_nil_r; reflexivity]]|exact F4].
    + right. exists t, g', (j :: ks). rewrite Hg. split; [reflexivity|]. split.
      { exists ((g_count g, j) :: own). split; [rewrite F3, <- app_assoc; reflexivity|]. split; [cbn; rewrite F4; reflexivity|exact F5]. }
      split; [cbn; exists s', r; auto|]. split; [cbn [rest]; rewrite F1, F6; reflexivity|exact F7].
Qed.

(** Runs without interruption that take up recorded positions. *)
Lemma skipped id skip keep items l : low id l -> forall k n g, k + n = skip -> n <= length items -> g_index g = l ++ [(id, k)] ->
  layer (body_of run) id skip keep items k None g =
  layer (body_of run) id skip keep (skipn n items) (k + n) None (mkGen (g_state g) (g_count g) (l ++ [(id, k + n)])).
Proof.
  intros Hl. induction items as [|b items IH]; intros k n g Hk Hn Hix.
  - cbn in Hn. assert (n = 0) by lia. subst n. rewrite Nat.add_0_r. cbn [skipn]. rewrite (gen_eta g) at 1. rewrite Hix. reflexivity.
  - destruct n as [|n]; [rewrite Nat.add_0_r; cbn [skipn]; rewrite (gen_eta g) at 1; rewrite Hix; reflexivity|].
    cbn [layer skipn]. replace (Nat.leb skip k) with false by (symmetry; apply Nat.leb_gt; lia).
    fold (layer (body_of run) id skip keep). rewrite (gen_eta g), Hix. rewrite bump_last by exact Hl.
    rewrite (IH (S k) n) by (cbn in Hn |- *; lia || reflexivity). cbn [g_state g_count app].
    replace (S k + n) with (k + S n) by lia. destruct (layer _ _ _ _ _ _ _ _) as [[t e] g2]. reflexivity.
Qed.
Lemma resumed_run s : nested s -> forall ks g, path ks s -> g_state g = ks -> low (g_count g) (g_index g) ->
  exists g', run s None g = (rest ks s, Goes None, g') /\ g_state g' = [] /\ (0 < g_count g -> ends g [] [] g').
Proof.
  intros Hn ks. revert s Hn. induction ks as [|k ks IH]; intros s Hn g Hp Hst Hlow.
  - destruct s as [a|items].
    + exists g. cbn. split; [reflexivity|]. split; [exact Hst|]. intros _. split; [exact Hst|split; [lia|rewrite app_nil_r; reflexivity]].
    + inversion Hn as [|? Hi]; subst.
      assert (HF : Forall (fun b => exists s, b = [s] /\ plain_run s) items).
      { rewrite Forall_forall. intros b Hb. destruct (Hi b Hb) as (s & -> & Hs). exists s. split; [reflexivity|apply nested_plain; exact Hs]. }
      cbn [run call]. rewrite Hst. cbn [tl].
      destruct (layer_plain (g_count g) 0 (Nat.eqb (g_count g) 0) items (g_index g) Hlow 0 None (mkGen [] (S (g_count g)) (g_index g ++ [(g_count g, 0)]))) as
        [(g' & Hg & F1 & F2 & F3 & F4)|(t & g' & j & ks & s' & r & Hg & F1 & F2 & (own & F3 & F4) & F5 & F6 & F7)]; [lia|exact HF|reflexivity|cbn; lia|reflexivity| |discriminate].
      exists g'. rewrite Hg. split; [reflexivity|]. split; [exact F1|]. intros H0. split; [exact F1|]. split; [cbn in F2; lia|].
      replace (Nat.eqb (g_count g) 0) with false in F3 by (symmetry; apply Nat.eqb_neq; lia). rewrite F3, app_nil_r. reflexivity.
  - destruct s as [a|items]; [destruct Hp|]. destruct Hp as (s1 & r & Hsk & Hp). inversion Hn as [|? Hi]; subst.
    assert (HF : Forall (fun b => exists s, b = [s] /\ nested s) items) by (rewrite Forall_forall; exact Hi).
    assert (Hk : k <= length items). { destruct (Nat.le_gt_cases k (length items)); [assumption|]. rewrite skipn_all2 in Hsk by lia. discriminate. }
    assert (HF2 : Forall (fun b => exists s, b = [s] /\ nested s) ([s1] :: r)).
    { rewrite <- (firstn_skipn k items), Hsk in HF. apply Forall_app in HF as [_ HF]. exact HF. }
    inversion HF2 as [|? ? (s2 & E & Hs1) HF3]; subst. injection E as <-.
    cbn [run call]. rewrite Hst. cbn [tl]. cbn [rest]. rewrite Hsk.
    rewrite (skipped (g_count g) k (Nat.eqb (g_count g) 0) items (g_index g) Hlow 0 k) by (cbn; lia || reflexivity).
    rewrite Hsk, Nat.add_0_l. cbn [layer g_state g_count]. rewrite Nat.leb_refl, body_one.
    set (g1 := mkGen ks (S (g_count g)) (g_index g ++ [(g_count g, k)])).
    destruct (IH s1 Hs1 g1 Hp eq_refl) as (g2 & Hg2 & F1 & F2); [apply low_snoc; exact Hlow|]. rewrite Hg2.
    destruct F2 as (_ & F2 & F3); [cbn; lia|]. cbn in F2, F3. rewrite app_nil_r in F3.
    rewrite (gen_eta g2), F1, F3, bump_last by exact Hlow. fold (layer (body_of run) (g_count g) k (Nat.eqb (g_count g) 0)).
    destruct (layer_plain (g_count g) k (Nat.eqb (g_count g) 0) r (g_index g) Hlow (S k) None (mkGen [] (g_count g2) (g_index g ++ [(g_count g, S k)]))) as
      [(g' & Hg & G1 & G2 & G3 & G4)|(t & g' & j & ks' & s' & r' & Hg & G1 & G2 & (own & G3 & G4) & G5 & G6 & G7)]; [lia| |reflexivity|cbn; lia|reflexivity| |discriminate].
    { eapply Forall_impl; [|exact HF3]. intros b (s & -> & Hs). exists s. split; [reflexivity|apply nested_plain; exact Hs]. }
    exists g'. rewrite Hg. cbn [budget]. split; [reflexivity|]. split; [exact G1|]. intros H0. split; [exact G1|]. split; [cbn in G2; lia|].
    replace (Nat.eqb (g_count g) 0) with false in G3 by (symmetry; apply Nat.eqb_neq; lia). rewrite G3, app_nil_r. reflexivity.
Qed.

(** ** C59 *)
(** A loop started with a state does the items from that position on, and its counter ends at the number of items. *)
Theorem C59_layer : forall (items : list nat) k, k <= length items ->
  exists g, run (For (map (fun a => [Act a]) items)) None (stack [k]) = (skipn k items, Goes None, g) /\ gen_state g = [length items].
Proof.
  intros items k Hk. set (its := map (fun a => [Act a]) items). cbn [run call stack g_state g_count g_index tl app Nat.eqb].
  assert (Hl : low 0 []) by constructor.
  assert (Hlen : length its = length items) by apply map_length.
  rewrite (skipped 0 k true its [] Hl 0 k) by (cbn; lia || reflexivity). cbn [g_state g_count app Nat.add].
  assert (Hfm : forall l, flat_map (flat_map actions) (map (fun a => [Act a]) l) = l) by (induction l as [|a l IH]; [reflexivity|cbn in *; congruence]).
  assert (Hsk : skipn k its = map (fun a => [Act a]) (skipn k items)).
  { unfold its. clear. revert items. induction k as [|k IH]; intros items; [reflexivity|]. destruct items; [reflexivity|apply IH]. }
  destruct (layer_plain 0 k true (skipn k its) [] Hl k None (mkGen [] 1 [(0, k)])) as
    [(g' & Hg & F1 & F2 & F3 & F4)|(t & g' & j & ks & s' & r & Hg & F1 & F2 & (own & F3 & F4) & F5 & F6 & F7)]; [lia| |reflexivity|cbn; lia|reflexivity| |discriminate].
  { rewrite Hsk. apply Forall_forall. intros b Hb. apply in_map_iff in Hb as (a & <- & _). exists (Act a). split; [reflexivity|apply nested_plain; constructor]. }
  exists g'. rewrite Hg. rewrite Hsk, Hfm. split; [reflexivity|]. unfold gen_state. rewrite F3. cbn. f_equal. rewrite skipn_length. lia.
Qed.
(** Nested loops interrupted before any of their actions and started again from the recorded state: together the two
    runs do every action exactly once, in order. *)
Theorem C59_resume_nested : forall items m, nested (For items) -> m < length (actions (For items)) ->
  exists done g, run (For items) (Some m) (stack []) = (done, Stopped, g) /\ length done = m /\
    exists left g', run (For items) None (stack (gen_state g)) = (left, Goes None, g') /\ done ++ left = actions (For items).
Proof.
  intros items m Hn Hm. inversion Hn as [|? Hi]; subst.
  assert (HF : Forall (fun b => exists s, b = [s] /\ plain_run s) items).
  { rewrite Forall_forall. intros b Hb. destruct (Hi b Hb) as (s & -> & Hs). exists s. split; [reflexivity|apply nested_plain; exact Hs]. }
  assert (Hl : low 0 []) by constructor.
  destruct (layer_plain 0 0 true items [] Hl 0 (Some m) (mkGen [] 1 [(0, 0)])) as
    [(g' & Hg & F1 & F2 & F3 & F4)|(t & g' & j & ks & s' & r & Hg & F1 & F2 & (own & F3 & F4) & F5 & F6 & F7)]; [lia|exact HF|reflexivity|cbn; lia|reflexivity|exfalso; cbn [enough] in F4; cbn [actions] in Hm; lia|].
  exists t, g'. cbn [run call stack g_state g_count g_index tl app Nat.eqb]. rewrite Hg. split; [reflexivity|]. split; [congruence|].
  assert (Hst : gen_state g' = j :: ks). { unfold gen_state. rewrite F3. cbn. rewrite F4. reflexivity. }
  rewrite Hst. destruct (resumed_run (For items) Hn (j :: ks) (stack (j :: ks))) as (g2 & Hg2 & _ & _); [cbn; exists s', r; auto|reflexivity|constructor|].
  exists (rest (j :: ks) (For items)), g2. split; [exact Hg2|]. cbn [rest]. rewrite F1. exact F6.
Qed.
(** Two loops after one another in a body: resuming can lose items. Here action 3 is never done. *)
Theorem C59_sequential_loops_refuted : exists items m done g left g',
  run (For items) (Some m) (stack []) = (done, Stopped, g) /\
  run (For items) None (stack (gen_state g)) = (left, Goes None, g') /\
  In 3 (actions (For items)) /\ ~ In 3 (done ++ left).
Proof.
  pose (p := [[For []; For [[For [[Act 1]; [Act 2]; [Act 3]]]; [Act 4]; [Act 5]; [Act 6]]]]).
  let r := eval vm_compute in (run (For p) (Some 2) (stack [])) in
  match r with (?d, _, ?g) =>
    let r2 := eval vm_compute in (run (For p) None (stack (gen_state g))) in
    match r2 with (?l, _, ?g2) => exists p, 2, d, g, l, g2 end end.
  split; [reflexivity|]. split; [reflexivity|]. split; [vm_compute; tauto|]. vm_compute. intuition discriminate.
Qed.

Example C59_example :
  let p := [[For [[Act 1]; [Act 2]]]; [For []]; [For [[Act 3]; [Act 4]; [Act 5]]]; [Act 6]] in
  nested (For p) /\
  (let '(t, _, g) := run (For p) (Some 3) (stack []) in (t, gen_state g)) = ([1; 2; 3], [2; 1]) /\
  (let '(t, _, g) := run (For p) None (stack [2; 1]) in (t, gen_state g)) = ([4; 5; 6], [4]).
Proof.
  split; [|split; reflexivity]. constructor. intros b Hb. cbn in Hb.
  repeat (destruct Hb as [<-|Hb]; [eexists; split; [reflexivity|repeat (constructor || (intros ? Hc; cbn in Hc; repeat (destruct Hc as [<-|Hc]; [eexists; split; [reflexivity|constructor]|]); destruct Hc))]|]). destruct Hb.
Qed.

Print Assumptions C59_layer.
Print Assumptions C59_resume_nested.
Print Assumptions C59_sequential_loops_refuted.
