(** No operation on a list, dict or field loses track of a file: C70. *)
From Coq Require Import List Ascii String Bool Arith ZArith Lia Permutation.
From Verif Require Import Base PosixModel FsModel PathModel SerialModel StoreModel TrackModel ContainerModel FieldModel PropsContainer PropsField StoreFrame StoreMount StoreSpec StoreLocal StorePlace
     StoreRecord StoreSave StoreEvents StoreExample SerialSpec SerialProof RoundSpec KeepSpec RoundProof ReplayProof CleanProof DropProof DropSettled KeepProof ContextProof KeepSave PathSpec MountSpec DirSpec
     PosixProof FsProof DirProof TargetProof MountProof HistoryProof PathFacts PropsStore PropsRepo PropsRound PropsKeep PropsDelete PropsReplace.
Import ListNotations.

Local Arguments str_eq_dec : simpl never.
Local Arguments atom_eq_dec : simpl never.

(** ** Specification *)
(** A record with this target is in the list. *)
Definition named (t : target) (l : list obj) : Prop := exists c pre we re, In (ORec c t pre we re) l.

Lemma named_app t a b : named t (a ++ b) <-> named t a \/ named t b.
Proof.
  unfold named. split.
  - intros (c & p & we & re & H). apply in_app_or in H as [H|H]; [left|right]; eauto.
  - intros [(c & p & we & re & H)|(c & p & we & re & H)]; exists c, p, we, re; apply in_or_app; auto.
Qed.
Lemma named_sub t a b : (forall x, In x a -> In x b) -> named t a -> named t b.
Proof. intros H (c & p & we & re & Hx). exists c, p, we, re. auto. Qed.
Lemma named_one t x l : named t (x :: l) <-> named t [x] \/ named t l.
Proof. change (x :: l) with ([x] ++ l). apply named_app. Qed.
(** A file that was in [s] is in [s'] or put aside in [u']; nothing is taken out of [u]. *)
Definition tracked (s u s' u' : list obj) : Prop := (forall t, named t s -> named t s' \/ named t u') /\ forall x, In x u -> In x u'.
Lemma tracked_refl s u : tracked s u s u.
Proof. split; auto. Qed.
Lemma tracked_trans s u s1 u1 s2 u2 : tracked s u s1 u1 -> tracked s1 u1 s2 u2 -> tracked s u s2 u2.
Proof. intros [H1 H2] [H3 H4]. split; [|auto]. intros t Ht. destruct (H1 t Ht) as [H|H]; [auto|]. right. eapply named_sub; eassumption. Qed.
Lemma tracked_nil s u : tracked s u s (u ++ []).
Proof. rewrite app_nil_r. apply tracked_refl. Qed.

Section Lists.
Variable E : senv.
Variable n : nat.
Hypothesis Hclean : s_clean E = true.

Lemma content_named o w v o' w' t : content_of E n o w = (Ok (v, o'), w') -> named t [o] -> named t [o'].
Proof.
  intros H (c & p & we & re & [->|[]]). cbn [content_of] in H. apply mbind_ok in H as ([[v1 c1] re1] & w1 & _ & H). unfold ret in H. injection H as _ <- _.
  do 4 eexists. left. reflexivity.
Qed.
Lemma over_named old v w v1 more w' t : over E n old v w = (Ok (v1, more), w') -> named t [old] -> named t [v1] \/ named t more.
Proof.
  intros H Ht. destruct Ht as (c & p & we & re & [->|[]]). unfold over in H. destruct (is_storable E v).
  - apply mbind_ok in H as ([c1 old'] & w1 & H1 & H). unfold ret in H. injection H as <- _ _. rewrite Hclean in H1.
    destruct (content_named _ _ _ _ _ t H1) as (c2 & p2 & we2 & re2 & [->|[]]); [do 4 eexists; left; reflexivity|]. left. do 4 eexists. left. reflexivity.
  - unfold ret in H. injection H as <- <- _. rewrite Hclean. right. do 4 eexists. left. reflexivity.
Qed.
Lemma wrap_named q v t : named t [v] -> named t [snd (seq_wrap E q v)].
Proof. intros (c & p & we & re & [->|[]]). cbn. do 4 eexists. left. reflexivity. Qed.
Lemma removable_named o t : named t [o] -> named t (if s_clean E && is_removable o then [o] else []).
Proof. intros Ht. pose proof Ht as (c & p & we & re & [->|[]]). rewrite Hclean. exact Ht. Qed.
Lemma set_nth_named {k s x} y t : nth_error s k = Some x -> named t s -> named t (set_nth k y s) \/ named t [x].
Proof.
  intros Hk. revert k Hk. induction s as [|z s IH]; intros [|k] Hk Ht; try discriminate; cbn in Hk |- *.
  - injection Hk as ->. apply named_one in Ht as [Ht|Ht]; [auto|]. left. apply named_one. auto.
  - apply named_one in Ht as [Ht|Ht]; [left; apply named_one; auto|]. destruct (IH k Hk Ht) as [H|H]; [left; apply named_one; auto|auto].
Qed.
Lemma set_nth_has {k} {s : list obj} {x} (y : obj) : nth_error s k = Some x -> In y (set_nth k y s).
Proof. revert k. induction s as [|z s IH]; intros [|k] Hk; try discriminate; cbn in Hk |- *; [left; reflexivity|right; eauto]. Qed.
Lemma named_at k s x y t : nth_error s k = Some x -> named t [y] -> named t (set_nth k y s).
Proof. intros Hk (c & p & we & re & [->|[]]). do 4 eexists. eapply set_nth_has. eassumption. Qed.
Lemma remove_nth_named k s t : named t s -> named t (remove_nth k s) \/ exists x, nth_error s k = Some x /\ named t [x].
Proof.
  unfold remove_nth. revert k. induction s as [|z s IH]; intros [|k] Ht; cbn [firstn skipn app nth_error].
  - auto.
  - auto.
  - apply named_one in Ht as [Ht|Ht]; [right; eauto|auto].
  - apply named_one in Ht as [Ht|Ht]; [left; apply named_one; auto|]. destruct (IH k Ht) as [H|H]; [left; apply named_one; auto|auto].
Qed.

Lemma get_tracked q s u i w r q' s' u' w' : seq_get E n (q, s, u) i w = (Ok (r, (q', s', u')), w') -> tracked s u s' u'.
Proof.
  unfold seq_get. destruct (list_pos i (List.length s)) as [k|]; [|unfold ret; intros H; injection H as _ _ <- <- _; apply tracked_refl].
  destruct (nth_error s k) as [o|] eqn:Ek; [|unfold ret; intros H; injection H as _ _ <- <- _; apply tracked_refl].
  intros H. apply mbind_ok in H as ([v o'] & w1 & H1 & H). unfold ret in H. injection H as _ _ <- <- _. split; [|auto]. intros t Ht. left.
  destruct (set_nth_named o' t Ek Ht) as [Hx|Hx]; [assumption|]. eapply named_at; [eassumption|]. eapply content_named; eassumption.
Qed.
Lemma set_tracked q s u i v w r q' s' u' w' : seq_set E n (q, s, u) i v w = (Ok (r, (q', s', u')), w') -> tracked s u s' u'.
Proof.
  unfold seq_set. destruct (i <? Z.of_nat (List.length s))%Z; [|destruct (seq_wrap E q v) as [q1 v1]; unfold ret; intros H; injection H as _ _ <- <- _; apply tracked_refl].
  destruct (list_pos i (List.length s)) as [k|]; [|unfold ret; intros H; injection H as _ _ <- <- _; apply tracked_refl].
  destruct (nth_error s k) as [o|] eqn:Ek; [|unfold ret; intros H; injection H as _ _ <- <- _; apply tracked_refl].
  intros H. apply mbind_ok in H as ([v1 more] & w1 & H1 & H). destruct (seq_wrap E q v1) as [q1 v2] eqn:Ew. unfold ret in H. injection H as _ _ <- <- _.
  split; [|intros x Hx; apply in_or_app; auto]. intros t Ht. destruct (set_nth_named v2 t Ek Ht) as [Hx|Hx]; [auto|].
  destruct (over_named _ _ _ _ _ _ t H1 Hx) as [Hy|Hy]; [left|right; apply named_app; auto].
  eapply named_at; [eassumption|]. apply (wrap_named q) in Hy. rewrite Ew in Hy. exact Hy.
Qed.
Lemma insert_tracked q s u i v w r q' s' u' w' : seq_insert E (q, s, u) i v w = (Ok (r, (q', s', u')), w') -> tracked s u s' u'.
Proof.
  unfold seq_insert. destruct (seq_wrap E q v) as [q1 v1]. unfold ret. intros H. injection H as _ _ <- <- _. split; [|auto]. intros t Ht. left. revert Ht.
  apply named_sub. intros x Hx. unfold insert_nth. rewrite <- (firstn_skipn (insert_pos i (List.length s)) s) in Hx. apply in_app_or in Hx as [Hx|Hx]; apply in_or_app; [auto|right; right; assumption].
Qed.
Lemma del_tracked q s u i w r q' s' u' w' : seq_del E (q, s, u) i w = (Ok (r, (q', s', u')), w') -> tracked s u s' u'.
Proof.
  unfold seq_del. destruct (list_pos i (List.length s)) as [k|]; [|unfold ret; intros H; injection H as _ _ <- <- _; apply tracked_refl].
  unfold ret. intros H. injection H as _ _ <- <- _. split; [|intros x Hx; apply in_or_app; auto]. intros t Ht.
  destruct (remove_nth_named k s t Ht) as [Hx|(x & Hx & Hy)]; [auto|]. right. apply named_app. right. rewrite Hx. apply removable_named. assumption.
Qed.
Lemma del_last_tracked k : forall q s u w q' s' u' w', del_last E k (q, s, u) w = (Ok (q', s', u'), w') -> tracked s u s' u'.
Proof.
  induction k as [|k IH]; intros q s u w q' s' u' w' H; cbn [del_last] in H.
  - unfold ret in H. injection H as _ <- <- _. apply tracked_refl.
  - apply mbind_ok in H as ([r [[q1 s1] u1]] & w1 & H1 & H). cbn [snd] in H. eapply tracked_trans; [eapply del_tracked; exact H1|eapply IH; exact H].
Qed.
Lemma extend_tracked vs : forall q s u w r q' s' u' w', seq_extend E (q, s, u) vs w = (Ok (r, (q', s', u')), w') -> tracked s u s' u'.
Proof.
  induction vs as [|v vs IH]; intros q s u w r q' s' u' w' H; cbn [seq_extend] in H.
  - unfold ret in H. injection H as _ _ <- <- _. apply tracked_refl.
  - apply mbind_ok in H as ([r1 [[q1 s1] u1]] & w1 & H1 & H). cbn [snd] in H. eapply tracked_trans; [eapply insert_tracked; exact H1|eapply IH; exact H].
Qed.
Lemma iter_named s : forall w xs w' t, mapM (content_of E n) s w = (Ok xs, w') -> named t s -> named t (map snd xs).
Proof.
  induction s as [|o s IH]; intros w xs w' t H Ht; cbn [mapM] in H.
  - destruct Ht as (c & p & we & re & []).
  - apply mbind_ok in H as ([v o'] & w1 & H1 & H). apply mbind_ok in H as (ys & w2 & H2 & H). unfold ret in H. injection H as <- _. cbn [map snd].
    apply named_one in Ht as [Ht|Ht]; apply named_one; [left; eapply content_named; eassumption|right; eauto].
Qed.
Lemma op_tracked q s u o w r q' s' u' w' : seq_op E n (q, s, u) o w = (Ok (r, (q', s', u')), w') -> tracked s u s' u'.
Proof.
  destruct o as [i|i v|i v|i|v|vs|i| | |]; cbn [seq_op]; intros H.
  - eapply get_tracked. exact H.
  - eapply set_tracked. exact H.
  - eapply insert_tracked. exact H.
  - eapply del_tracked. exact H.
  - eapply insert_tracked. exact H.
  - eapply extend_tracked. exact H.
  - apply mbind_ok in H as ([[v|e] [[q1 s1] u1]] & w1 & H1 & H).
    + apply mbind_ok in H as ([r2 [[q2 s2] u2]] & w2 & H2 & H). unfold ret in H. cbn [snd] in H. injection H as _ _ <- <- _.
      eapply tracked_trans; [eapply get_tracked; exact H1|eapply del_tracked; exact H2].
    + unfold ret in H. injection H as _ _ <- <- _. eapply get_tracked. exact H1.
  - unfold ret in H. injection H as _ _ <- <- _. apply tracked_refl.
  - apply mbind_ok in H as (xs & w1 & H1 & H). unfold ret in H. injection H as _ _ <- <- _. split; [|auto]. intros t Ht. left. eapply iter_named; eassumption.
  - unfold seq_clear in H. apply mbind_ok in H as ([[q1 s1] u1] & w1 & H1 & H). unfold ret in H. injection H as _ _ <- <- _. eapply del_last_tracked. exact H1.
Qed.
Lemma ops_tracked ops : forall q s u w rs q' s' u' w', seq_ops E n (q, s, u) ops w = (Ok (rs, (q', s', u')), w') -> tracked s u s' u'.
Proof.
  induction ops as [|o ops IH]; intros q s u w rs q' s' u' w' H; cbn [seq_ops] in H.
  - unfold ret in H. injection H as _ _ <- <- _. apply tracked_refl.
  - apply mbind_ok in H as ([r1 [[q1 s1] u1]] & w1 & H1 & H). apply mbind_ok in H as ([rs2 [[q2 s2] u2]] & w2 & H2 & H). unfold ret in H. cbn [snd] in H, H2. injection H as _ _ <- <- _.
    eapply tracked_trans; [eapply op_tracked; exact H1|eapply IH; exact H2].
Qed.

(** Dicts. *)
Lemma in_del {A} k (s : list (str * A)) k1 x : In (k1, x) (assoc_del k s) <-> In (k1, x) s /\ k1 <> k.
Proof.
  induction s as [|[k2 y] s IH]; cbn [assoc_del]; [split; [intros []|intros [[] _]]|]. destruct (str_eq_dec k2 k) as [->|Hn].
  - rewrite IH. split; [intros [H1 H2]; split; [right|]; assumption|]. intros [[H1|H1] H2]; [injection H1 as <- _; congruence|auto].
  - cbn [In]. rewrite IH. split; [intros [H1|[H1 H2]]; [injection H1 as <- <-; auto|auto]|intros [[H1|H1] H2]; auto].
Qed.
Lemma in_assoc {A} k (s : list (str * A)) x : NoDup (map fst s) -> In (k, x) s -> assoc k s = Some x.
Proof.
  induction s as [|[k2 y] s IH]; [intros _ []|]. cbn [map fst]. intros Hn. inversion Hn as [|? ? H1 H2]; subst. cbn [assoc]. intros [Hx|Hx].
  - injection Hx as <- <-. destruct (str_eq_dec k2 k2); congruence.
  - destruct (str_eq_dec k2 k) as [->|]; [|auto]. exfalso. apply H1. apply (in_map fst) in Hx. exact Hx.
Qed.
Lemma del_named k s x t : NoDup (map fst s) -> assoc k s = Some x -> named t (map snd s) -> named t (map snd (assoc_del k s)) \/ named t [x].
Proof.
  intros Hn Ha (c & p & we & re & Hx). apply in_map_iff in Hx as ([k1 y] & Hy & Hx). cbn in Hy. subst y. destruct (str_eq_dec k1 k) as [->|Hne].
  - right. rewrite (in_assoc _ _ _ Hn Hx) in Ha. injection Ha as <-. do 4 eexists. left. reflexivity.
  - left. do 4 eexists. apply in_map_iff. exists (k1, ORec c t p we re). split; [reflexivity|]. apply in_del. auto.
Qed.
Lemma set_named k s x y t : assoc k s = Some x -> named t (map snd s) -> named t (map snd (assoc_set k y s)) \/ named t [x].
Proof.
  induction s as [|[k2 z] s IH]; [discriminate|]. cbn [assoc assoc_set map snd]. destruct (str_eq_dec k2 k) as [->|Hne]; intros Ha Ht; cbn [map snd]; apply named_one in Ht as [Ht|Ht].
  - injection Ha as ->. auto.
  - left. apply named_one. auto.
  - left. apply named_one. auto.
  - destruct (IH Ha Ht) as [H|H]; [left; apply named_one; auto|auto].
Qed.
Lemma set_keys {A} k (s : list (str * A)) x y : assoc k s = Some x -> map fst (assoc_set k y s) = map fst s.
Proof. induction s as [|[k2 z] s IH]; [discriminate|]. cbn [assoc assoc_set]. destruct (str_eq_dec k2 k); cbn [map fst]; intros H; [reflexivity|]. f_equal. auto. Qed.
Lemma set_holds {A} k (s : list (str * A)) y : In y (map snd (assoc_set k y s)).
Proof. induction s as [|[k2 z] s IH]; cbn [assoc_set map snd]; [left; reflexivity|]. destruct (str_eq_dec k2 k); cbn [map snd]; [left; reflexivity|right; assumption]. Qed.
Definition mtracked (s : list (str * obj)) (u : list obj) (s' : list (str * obj)) (u' : list obj) : Prop := NoDup (map fst s') /\ tracked (map snd s) u (map snd s') u'.
Lemma mget_tracked q s u k w r q' s' u' w' : NoDup (map fst s) -> map_get E n (q, s, u) k w = (Ok (r, (q', s', u')), w') -> mtracked s u s' u'.
Proof.
  intros Hn. unfold map_get. destruct (assoc k s) as [o|] eqn:Ek; [|unfold ret; intros H; injection H as _ _ <- <- _; split; [assumption|apply tracked_refl]].
  intros H. apply mbind_ok in H as ([v o'] & w1 & H1 & H). unfold ret in H. cbn [snd] in H. injection H as _ _ <- <- _. split; [rewrite (set_keys _ _ _ _ Ek); assumption|]. split; [|auto]. intros t Ht. left.
  destruct (set_named k s o o' t Ek Ht) as [Hx|Hx]; [assumption|]. destruct (content_named _ _ _ _ _ t H1 Hx) as (c & p & we & re & [->|[]]). do 4 eexists. apply set_holds.
Qed.
Lemma new_key {A} k (s : list (str * A)) v : NoDup (map fst s) -> NoDup (map fst (assoc_del k s ++ [(k, v)])).
Proof.
  intros Hn. rewrite map_app. cbn [map fst]. apply (Permutation_NoDup (Permutation_cons_append _ _)). constructor; [|apply assoc_del_keys; assumption].
  intros Hi. apply in_map_iff in Hi as ([k1 x] & Hx & Hin). cbn in Hx. subst k1. apply in_del in Hin as [_ Hx]. congruence.
Qed.
Lemma mset_tracked q s u k v w r q' s' u' w' : NoDup (map fst s) -> map_set E n (q, s, u) k v w = (Ok (r, (q', s', u')), w') -> mtracked s u s' u'.
Proof.
  intros Hn. unfold map_set. intros H. apply mbind_ok in H as ([v1 more] & w1 & H1 & H). unfold ret in H. injection H as _ _ <- <- _. split; [apply new_key; assumption|].
  split; [|intros x Hx; apply in_or_app; auto]. intros t Ht. rewrite map_app. cbn [map snd]. destruct (assoc k s) as [old|] eqn:Ek.
  - destruct (del_named k s old t Hn Ek Ht) as [Hx|Hx]; [left; apply named_app; auto|].
    destruct (over_named _ _ _ _ _ _ t H1 Hx) as [Hy|Hy]; [left; apply named_app; right|right; apply named_app; auto].
    destruct Hy as (c & p & we & re & [->|[]]). cbn. do 4 eexists. left. reflexivity.
  - left. apply named_app. left. rewrite del_notin; [assumption|]. intros Hi. apply in_map_iff in Hi as ([k1 x] & <- & Hin). cbn [fst] in Ek. rewrite (in_assoc _ _ _ Hn Hin) in Ek. discriminate.
Qed.
Lemma mdel_tracked q s u k w r q' s' u' w' : NoDup (map fst s) -> map_del E (q, s, u) k w = (Ok (r, (q', s', u')), w') -> mtracked s u s' u'.
Proof.
  intros Hn. unfold map_del. destruct (assoc k s) as [o|] eqn:Ek; [|unfold ret; intros H; injection H as _ _ <- <- _; split; [assumption|apply tracked_refl]].
  unfold ret. intros H. injection H as _ _ <- <- _. split; [apply assoc_del_keys; assumption|]. split; [|intros x Hx; apply in_or_app; auto]. intros t Ht.
  destruct (del_named k s o t Hn Ek Ht) as [Hx|Hx]; [auto|]. right. apply named_app. right. apply removable_named. assumption.
Qed.
Lemma mtracked_trans s u s1 u1 s2 u2 : mtracked s u s1 u1 -> mtracked s1 u1 s2 u2 -> mtracked s u s2 u2.
Proof. intros [_ H1] [H2 H3]. split; [assumption|]. eapply tracked_trans; eassumption. Qed.
Lemma keys_tracked ks : forall q s u w q' s' u' w', NoDup (map fst s) -> del_keys E ks (q, s, u) w = (Ok (q', s', u'), w') -> mtracked s u s' u'.
Proof.
  induction ks as [|k ks IH]; intros q s u w q' s' u' w' Hn H; cbn [del_keys] in H.
  - unfold ret in H. injection H as _ <- <- _. split; [assumption|apply tracked_refl].
  - apply mbind_ok in H as ([r [[q1 s1] u1]] & w1 & H1 & H). cbn [snd] in H. pose proof (mdel_tracked _ _ _ _ _ _ _ _ _ _ Hn H1) as G1. eapply mtracked_trans; [exact G1|eapply IH; [apply G1|exact H]].
Qed.
Lemma mop_tracked q s u o w r q' s' u' w' : NoDup (map fst s) -> map_op E n (q, s, u) o w = (Ok (r, (q', s', u')), w') -> mtracked s u s' u'.
Proof.
  intros Hn. destruct o as [k|k v|k|k| | |]; cbn [map_op]; intros H.
  - eapply mget_tracked; eassumption.
  - eapply mset_tracked; eassumption.
  - eapply mdel_tracked; eassumption.
  - apply mbind_ok in H as ([[v|e] [[q1 s1] u1]] & w1 & H1 & H); pose proof (mget_tracked _ _ _ _ _ _ _ _ _ _ Hn H1) as G1.
    + apply mbind_ok in H as ([r2 [[q2 s2] u2]] & w2 & H2 & H). unfold ret in H. cbn [snd] in H. injection H as _ _ <- <- _. eapply mtracked_trans; [exact G1|eapply mdel_tracked; [apply G1|exact H2]].
    + unfold ret in H. injection H as _ _ <- <- _. exact G1.
  - unfold ret in H. injection H as _ _ <- <- _. split; [assumption|apply tracked_refl].
  - unfold ret in H. injection H as _ _ <- <- _. split; [assumption|apply tracked_refl].
  - apply mbind_ok in H as ([[q1 s1] u1] & w1 & H1 & H). unfold ret in H. injection H as _ _ <- <- _. eapply keys_tracked; eassumption.
Qed.
Lemma mops_tracked ops : forall q s u w rs q' s' u' w', NoDup (map fst s) -> map_ops E n (q, s, u) ops w = (Ok (rs, (q', s', u')), w') -> mtracked s u s' u'.
Proof.
  induction ops as [|o ops IH]; intros q s u w rs q' s' u' w' Hn H; cbn [map_ops] in H.
  - unfold ret in H. injection H as _ _ <- <- _. split; [assumption|apply tracked_refl].
  - apply mbind_ok in H as ([r1 [[q1 s1] u1]] & w1 & H1 & H). apply mbind_ok in H as ([rs2 [[q2 s2] u2]] & w2 & H2 & H). unfold ret in H. cbn [snd] in H, H2. injection H as _ _ <- <- _.
    pose proof (mop_tracked _ _ _ _ _ _ _ _ _ _ Hn H1) as G1. eapply mtracked_trans; [exact G1|eapply IH; [apply G1|exact H2]].
Qed.

(** Fields. *)
Variable fds : list mfield.
Variable pre : str -> option (obj -> res obj).
Definition in_field (name : str) (t : target) (fs : list (str * obj)) (u : list obj) : Prop :=
  (exists c pl we re, assoc name fs = Some (ORec c t pl we re)) \/ named t u.
Lemma fop_tracked name t fs u o w r fs' u' w' : wrap_of fds name <> None -> field_op E n fds pre (fs, u) o w = (Ok (r, (fs', u')), w') -> in_field name t fs u -> in_field name t fs' u'.
Proof.
  intros Hwr H Hin. destruct o as [k|k v]; cbn [field_op] in H.
  - unfold field_get in H. destruct (assoc k fs) as [o|] eqn:Ek; [|unfold ret in H; injection H as _ <- <- _; assumption].
    destruct (wrap_of fds k); [|unfold ret in H; injection H as _ <- <- _; assumption].
    apply mbind_ok in H as ([v o'] & w1 & H1 & H). unfold ret in H. cbn [snd] in H. injection H as _ <- <- _. destruct Hin as [(c & pl & we & re & Ha)|Hu]; [left|right; assumption].
    destruct (str_eq_dec k name) as [->|Hne]; [|exists c, pl, we, re; rewrite assoc_set_other by congruence; assumption].
    rewrite assoc_set_same. rewrite Ek in Ha. injection Ha as ->. destruct (content_named _ _ _ _ _ t H1) as (c2 & p2 & we2 & re2 & [->|[]]); [do 4 eexists; left; reflexivity|eauto 6].
  - destruct (str_eq_dec k name) as [->|Hne].
    2:{ assert (Hsame : assoc name fs' = assoc name fs /\ forall x, In x u -> In x u').
        { unfold field_set in H. destruct (wrap_of fds k) as [[t0 p0]|].
          - destruct (if is_record v then Ok v else pre_set pre k v) as [v'|e]; [|unfold ret in H; injection H as _ <- <- _; auto]. unfold record_set in H. destruct (is_storable E v').
            + destruct (assoc k fs) as [[]|]; try (unfold ret in H; injection H as _ <- <- _; split; [apply assoc_set_other; congruence|auto]).
              apply mbind_ok in H as ([c1 r1] & w1 & _ & H). unfold ret in H. injection H as _ <- <- _. split; [apply assoc_set_other; congruence|]. intros x Hx. apply in_or_app. auto.
            + unfold ret in H. injection H as _ <- <- _. split; [apply assoc_set_other; congruence|]. intros x Hx. apply in_or_app. auto.
          - destruct (pre_set pre k v); unfold ret in H; injection H as _ <- <- _; cbn [fst snd]; [split; [apply assoc_set_other; congruence|]|]; auto. }
        destruct Hsame as [Hs Hu]. destruct Hin as [(c & pl & we & re & Ha)|Hn]; [left; rewrite Hs; eauto|right; eapply named_sub; eassumption]. }
    unfold field_set in H. destruct (wrap_of fds name) as [[t0 p0]|]; [|congruence].
    destruct (if is_record v then Ok v else pre_set pre name v) as [v'|e]; [|unfold ret in H; injection H as _ <- <- _; assumption].
    unfold record_set in H. destruct Hin as [(c & pl & we & re & Ha)|Hn].
    + rewrite Ha in H. destruct (is_storable E v').
      * apply mbind_ok in H as ([c1 r1] & w1 & H1 & H). unfold ret in H. injection H as _ <- <- _. left. rewrite assoc_set_same. rewrite Hclean in H1.
        destruct (content_named _ _ _ _ _ t H1) as (c2 & p2 & we2 & re2 & [->|[]]); [do 4 eexists; left; reflexivity|]. eauto 6.
      * unfold ret in H. rewrite Hclean in H. injection H as _ <- <- _. right. apply named_app. right. do 4 eexists. left. reflexivity.
    + right. assert (Hu : forall x, In x u -> In x u').
      { destruct (is_storable E v').
        - destruct (assoc name fs) as [[]|]; try (unfold ret in H; injection H as _ <- <- _; auto).
          apply mbind_ok in H as ([c1 r1] & w1 & _ & H). unfold ret in H. injection H as _ <- <- _. intros x Hx. apply in_or_app. auto.
        - unfold ret in H. injection H as _ <- <- _. intros x Hx. apply in_or_app. auto. }
      eapply named_sub; eassumption.
Qed.
Lemma fops_tracked name t ops : wrap_of fds name <> None -> forall fs u w rs fs' u' w', field_ops E n fds pre (fs, u) ops w = (Ok (rs, (fs', u')), w') -> in_field name t fs u -> in_field name t fs' u'.
Proof.
  intros Hwr. induction ops as [|o ops IH]; intros fs u w rs fs' u' w' H Hin; cbn [field_ops] in H.
  - unfold ret in H. injection H as _ <- <- _. assumption.
  - apply mbind_ok in H as ([r1 [fs1 u1]] & w1 & H1 & H). apply mbind_ok in H as ([rs2 [fs2 u2]] & w2 & H2 & H). unfold ret in H. cbn [snd] in H, H2. injection H as _ <- <- _.
    eapply IH; [exact H2|]. eapply fop_tracked; eassumption.
Qed.
End Lists.

(** ** C70 *)
(** Whatever is done with a list, also with items that wait for their first access, the file of every record that was in
    it is the file of a record that is still in it or that waits to be removed. *)
Theorem C70_list_keeps_track : forall E n ops q s u w rs q' s' u' w' c t pre we re,
  s_clean E = true -> seq_ops E n (q, s, u) ops w = (Ok (rs, (q', s', u')), w') ->
  In (ORec c t pre we re) s -> named t s' \/ named t u'.
Proof.
  intros E n ops q s u w rs q' s' u' w' c t pre we re Hc H Hi. apply (ops_tracked E n Hc ops q s u w rs q' s' u' w' H). do 4 eexists. exact Hi.
Qed.
Theorem C70_dict_keeps_track : forall E n ops q s u w rs q' s' u' w' k c t pre we re,
  s_clean E = true -> NoDup (map fst s) -> map_ops E n (q, s, u) ops w = (Ok (rs, (q', s', u')), w') ->
  In (k, ORec c t pre we re) s -> named t (map snd s') \/ named t u'.
Proof.
  intros E n ops q s u w rs q' s' u' w' k c t pre we re Hc Hn H Hi. apply (mops_tracked E n Hc ops q s u w rs q' s' u' w' Hn H). do 4 eexists. apply (in_map snd) in Hi. exact Hi.
Qed.
Theorem C70_field_keeps_track : forall E n fds pre ops fs u w rs fs' u' w' f c t pl we re,
  s_clean E = true -> NoDup (map mf_name fds) -> In f fds -> mf_wrap f <> None ->
  field_ops E n fds pre (fs, u) ops w = (Ok (rs, (fs', u')), w') ->
  assoc (mf_name f) fs = Some (ORec c t pl we re) ->
  (exists c' pl' we' re', assoc (mf_name f) fs' = Some (ORec c' t pl' we' re')) \/ named t u'.
Proof.
  intros E n fds pre ops fs u w rs fs' u' w' f c t pl we re Hc Hn Hi Hwr H Ha.
  assert (Hw : wrap_of fds (mf_name f) <> None) by (rewrite (wrap_in fds (mf_name f) f) by trivial; exact Hwr).
  apply (fops_tracked E n Hc fds pre (mf_name f) t ops Hw fs u w rs fs' u' w' H). left. eauto.
Qed.

(** So after a save that file belongs to an item, or is gone, or was written by the save. *)
Theorem C70_list_files : forall E N n p k ops q s u w0 rs q' s' u' w o' j w' c t pre we re cs,
  absolute (s_cwd E) -> absolute (o_base p) -> registered_classes E -> ordinary_uuids E -> faithful_methods E ->
  reads_determined E -> plain_defaults E ->
  s_retouch E = $"auto" \/ s_retouch E = $"quit" -> s_validate E = true -> s_clean E = true ->
  plain k -> k <> $".gitignore" ->
  seq_ops E N (q, s, u) ops w0 = (Ok (rs, (q', s', u')), w) ->
  well_formed (w_fs w) -> holds_settled E w (key_dir p k) [] (OSeq q' s' u') -> save E n p k (OSeq q' s' u') w = (Ok (o', j), w') ->
  let dir := location (s_cwd E) (key_dir p k) in
  In (ORec c t pre we re) s -> places t cs -> ~ own_ignore E p k (dir ++ cs) ->
  named t s' \/ file_at (w_fs w') (dir ++ cs) = None \/ happened w w' (EvWrite (dir ++ cs)).
Proof.
  intros E N n p k ops q s u w0 rs q' s' u' w o' j w' c t pre we re cs Hc Hb Hreg Huid Hfai Hdet Hdef Hret Hval Hcq Hk Hgi Hops Hw Hbu H dir Hi Hp Hown.
  destruct (C70_list_keeps_track E N ops q s u w0 rs q' s' u' w c t pre we re Hcq Hops Hi) as [Hx|(c1 & p1 & we1 & re1 & Hx)]; [auto|right].
  destruct (settled_save E n p k (OSeq q' s' u') w o' j w') as (_ & G & _); trivial. apply G; [|assumption].
  apply del_item. eexists. split; [exact Hx|]. apply (fo_record E []). assumption.
Qed.
Theorem C70_dict_files : forall E N n p k ops q s u w0 rs q' s' u' w o' j w' key c t pre we re cs,
  absolute (s_cwd E) -> absolute (o_base p) -> registered_classes E -> ordinary_uuids E -> faithful_methods E ->
  reads_determined E -> plain_defaults E ->
  s_retouch E = $"auto" \/ s_retouch E = $"quit" -> s_validate E = true -> s_clean E = true ->
  plain k -> k <> $".gitignore" -> NoDup (map fst s) ->
  map_ops E N (q, s, u) ops w0 = (Ok (rs, (q', s', u')), w) ->
  well_formed (w_fs w) -> holds_settled E w (key_dir p k) [] (OMap q' s' u') -> save E n p k (OMap q' s' u') w = (Ok (o', j), w') ->
  let dir := location (s_cwd E) (key_dir p k) in
  In (key, ORec c t pre we re) s -> places t cs -> ~ own_ignore E p k (dir ++ cs) ->
  named t (map snd s') \/ file_at (w_fs w') (dir ++ cs) = None \/ happened w w' (EvWrite (dir ++ cs)).
Proof.
  intros E N n p k ops q s u w0 rs q' s' u' w o' j w' key c t pre we re cs Hc Hb Hreg Huid Hfai Hdet Hdef Hret Hval Hcq Hk Hgi Hnd Hops Hw Hbu H dir Hi Hp Hown.
  destruct (C70_dict_keeps_track E N ops q s u w0 rs q' s' u' w key c t pre we re Hcq Hnd Hops Hi) as [Hx|(c1 & p1 & we1 & re1 & Hx)]; [auto|right].
  destruct (settled_save E n p k (OMap q' s' u') w o' j w') as (_ & G & _); trivial. apply G; [|assumption].
  apply del_value. eexists. split; [exact Hx|]. apply (fo_record E []). assumption.
Qed.
Theorem C70_field_files : forall E N n p k cl fds pre ops fs u w0 rs fs' u' w o' j w' f c t pl we re cs,
  absolute (s_cwd E) -> absolute (o_base p) -> registered_classes E -> ordinary_uuids E -> faithful_methods E ->
  reads_determined E -> plain_defaults E ->
  s_retouch E = $"auto" \/ s_retouch E = $"quit" -> s_validate E = true -> s_clean E = true ->
  plain k -> k <> $".gitignore" -> k_kind (s_class E cl) = SModel fds -> NoDup (map mf_name fds) -> In f fds -> mf_wrap f <> None ->
  field_ops E N fds pre (fs, u) ops w0 = (Ok (rs, (fs', u')), w) ->
  well_formed (w_fs w) -> holds_settled E w (key_dir p k) [] (OModel cl fs' u') -> save E n p k (OModel cl fs' u') w = (Ok (o', j), w') ->
  let dir := location (s_cwd E) (key_dir p k) in
  assoc (mf_name f) fs = Some (ORec c t pl we re) -> places t cs -> ~ own_ignore E p k (dir ++ cs) ->
  (exists c' pl' we' re', assoc (mf_name f) fs' = Some (ORec c' t pl' we' re')) \/
  file_at (w_fs w') (dir ++ cs) = None \/ happened w w' (EvWrite (dir ++ cs)).
Proof.
  intros E N n p k cl fds pre ops fs u w0 rs fs' u' w o' j w' f c t pl we re cs Hc Hb Hreg Huid Hfai Hdet Hdef Hret Hval Hcq Hk Hgi Hkd Hnd Hf Hwr Hops Hw Hbu H dir Ha Hp Hown.
  destruct (C70_field_keeps_track E N fds pre ops fs u w0 rs fs' u' w f c t pl we re) as [Hx|(c1 & p1 & we1 & re1 & Hx)]; trivial; [auto|right].
  destruct (settled_save E n p k (OModel cl fs' u') w o' j w') as (_ & G & _); trivial. apply G; [|assumption].
  apply del_field. eexists. split; [exact Hx|]. apply (fo_record E []). assumption.
Qed.

(** ** Examples *)
(** A list with three records is saved; then one item is replaced by a number, one is taken out, and the list is saved
    again.  The same with a dict, and with the field of a pair. *)
Definition dr_record (nm : string) : obj := ORec (blob nm) (from_path ($nm)) false None None.
Lemma dr_places nm : In nm ["a.bin"; "b.bin"; "c.bin"]%string -> places (from_path ($nm)) [$nm].
Proof.
  intros [<-|[<-|[<-|[]]]]; (eexists [], _; split; [reflexivity|]; split; [reflexivity|]; repeat split; try discriminate; cbn;
    try (intros Hx; repeat destruct Hx as [Hx|Hx]; try discriminate; contradiction); intros [x Hx]; discriminate).
Qed.
Lemma dr_ordinary nm c : In nm ["a.bin"; "b.bin"; "c.bin"]%string -> ordinary rt_env c (from_path ($nm)).
Proof.
  intros Hi sd st su [Hsd|[Hsd _]] [Hst|[Hst _]] [Hsu|[Hsu _]]; destruct Hi as [<-|[<-|[<-|[]]]]; try discriminate; vm_compute in Hsd, Hst, Hsu;
  injection Hsd as <-; injection Hst as <-; injection Hsu as <-;
  (repeat split; try discriminate; cbn; try (intros Hx; repeat destruct Hx as [Hx|Hx]; try discriminate; contradiction); intros [x Hx]; discriminate).
Qed.
Lemma dr_holds w nm : In nm ["a.bin"; "b.bin"; "c.bin"]%string -> holds_settled rt_env w (key_dir ex_opts ($"new")) [] (dr_record nm).
Proof. intros Hi. apply h_rec; [|apply dr_ordinary; assumption]. intros sd _. eapply h_leaf; reflexivity. Qed.
Lemma dr_rest nm : In nm ["a.bin"; "b.bin"; "c.bin"]%string -> at_rest rt_env (dr_record nm).
Proof. intros Hi. eapply st_rec; [constructor|apply dr_places; assumption]. Qed.
Definition dr_q : seqcfg := mkSeq false [] false None.
Definition dr_p : mapcfg := mkMap false [] false false false.
Definition dr_list : list obj := [dr_record "a.bin"; dr_record "b.bin"; dr_record "c.bin"].
Definition dr_dict : list (str * obj) := [($"x", dr_record "a.bin"); ($"y", dr_record "b.bin"); ($"z", dr_record "c.bin")].
Definition dr_start (o : obj) : world := snd (save rt_env 10 ex_opts ($"new") o ex_world).
Definition dr_files (w : world) : list bool :=
  map (fun nm => match file_at (w_fs w) (location (s_cwd rt_env) (key_dir ex_opts ($"new")) ++ [$nm]) with Some _ => true | None => false end) ["a.bin"; "b.bin"; "c.bin"]%string.

Example C70_list_example :
  let ops := [LSet 0 (OAtom (AInt 5)); LPop 1; LGet (-1)] in
  let w := dr_start (OSeq dr_q dr_list []) in
  let u' := [dr_record "a.bin"; dr_record "b.bin"] in
  s_clean rt_env = true /\ well_formed (w_fs w) /\ dr_files w = [true; true; true] /\
  (exists rs, seq_ops rt_env 10 (dr_q, dr_list, []) ops w = (Ok (rs, (dr_q, [OAtom (AInt 5); dr_record "c.bin"], u')), w)) /\
  holds_settled rt_env w (key_dir ex_opts ($"new")) [] (OSeq dr_q [OAtom (AInt 5); dr_record "c.bin"] u') /\
  exists o' j w', save rt_env 10 ex_opts ($"new") (OSeq dr_q [OAtom (AInt 5); dr_record "c.bin"] u') w = (Ok (o', j), w') /\ dr_files w' = [false; false; true].
Proof.
  intros ops w u'. split; [reflexivity|]. split; [vm_compute; repeat constructor; cbn; intuition discriminate|]. split; [vm_compute; reflexivity|]. split; [|split].
  - let x := eval vm_compute in (seq_ops rt_env 10 (dr_q, dr_list, []) [LSet 0 (OAtom (AInt 5)); LPop 1; LGet (-1)] (dr_start (OSeq dr_q dr_list []))) in match x with (Ok (?rs, _), _) => exists rs end. vm_compute. reflexivity.
  - apply h_seq; [constructor; [apply dr_rest; left; reflexivity|constructor; [apply dr_rest; right; left; reflexivity|constructor]]|].
    intros x [<-|[<-|[]]]; [constructor|]. apply dr_holds. right. right. left. reflexivity.
  - let x := eval vm_compute in (save rt_env 10 ex_opts ($"new") (OSeq dr_q [OAtom (AInt 5); dr_record "c.bin"] [dr_record "a.bin"; dr_record "b.bin"]) (dr_start (OSeq dr_q dr_list []))) in
    match x with (Ok (?o, ?j), ?w1) => exists o, j, w1 end. split; vm_compute; reflexivity.
Qed.
Example C70_dict_example :
  let ops := [DSet ($"x") (OAtom (AInt 5)); DPop ($"y"); DGet ($"z"); DDel ($"no")] in
  let w := dr_start (OMap dr_p dr_dict []) in
  let s' := [($"z", dr_record "c.bin"); ($"x", OAtom (AInt 5))] in
  let u' := [dr_record "a.bin"; dr_record "b.bin"] in
  NoDup (map fst dr_dict) /\ well_formed (w_fs w) /\ dr_files w = [true; true; true] /\
  (exists rs, map_ops rt_env 10 (dr_p, dr_dict, []) ops w = (Ok (rs, (dr_p, s', u')), w)) /\
  holds_settled rt_env w (key_dir ex_opts ($"new")) [] (OMap dr_p s' u') /\
  exists o' j w', save rt_env 10 ex_opts ($"new") (OMap dr_p s' u') w = (Ok (o', j), w') /\ dr_files w' = [false; false; true].
Proof.
  intros ops w s' u'. split; [cbn; repeat (apply NoDup_cons; [cbn; intuition discriminate|]); apply NoDup_nil|]. split; [vm_compute; repeat constructor; cbn; intuition discriminate|]. split; [vm_compute; reflexivity|]. split; [|split].
  - let x := eval vm_compute in (map_ops rt_env 10 (dr_p, dr_dict, []) [DSet ($"x") (OAtom (AInt 5)); DPop ($"y"); DGet ($"z"); DDel ($"no")] (dr_start (OMap dr_p dr_dict []))) in match x with (Ok (?rs, _), _) => exists rs end. vm_compute. reflexivity.
  - apply h_map; [constructor; [apply dr_rest; left; reflexivity|constructor; [apply dr_rest; right; left; reflexivity|constructor]]| |].
    + intros k x [Hx|[Hx|[]]]; injection Hx as <- <-; [|constructor]. apply dr_holds. right. right. left. reflexivity.
    + cbn. repeat (apply NoDup_cons; [cbn; intuition discriminate|]). apply NoDup_nil.
  - let x := eval vm_compute in (save rt_env 10 ex_opts ($"new") (OMap dr_p [($"z", dr_record "c.bin"); ($"x", OAtom (AInt 5))] [dr_record "a.bin"; dr_record "b.bin"]) (dr_start (OMap dr_p dr_dict []))) in
    match x with (Ok (?o, ?j), ?w1) => exists o, j, w1 end. split; vm_compute; reflexivity.
Qed.
Definition dr_fields (o : obj) : list (str * obj) := [($"name", OAtom (AInt 3)); ($"data", o); ($"tmp", OAtom (AInt 7))].
Example C70_field_example :
  let ops := [FSet ($"data") (OAtom (AInt 5)); FGet ($"data"); FSet ($"data") (OAtom ANone)] in
  let w := dr_start (OModel 1 (dr_fields (dr_record "a.bin")) []) in
  let u' := [dr_record "a.bin"; OAtom (AInt 5)] in
  k_kind (s_class rt_env 1) = SModel ex_fields /\ NoDup (map mf_name ex_fields) /\ well_formed (w_fs w) /\ dr_files w = [true; false; false] /\
  (exists rs, field_ops rt_env 10 ex_fields (fun _ => None) (dr_fields (dr_record "a.bin"), []) ops w = (Ok (rs, (dr_fields (OAtom ANone), u')), w)) /\
  holds_settled rt_env w (key_dir ex_opts ($"new")) [] (OModel 1 (dr_fields (OAtom ANone)) u') /\
  exists o' j w', save rt_env 10 ex_opts ($"new") (OModel 1 (dr_fields (OAtom ANone)) u') w = (Ok (o', j), w') /\ dr_files w' = [false; false; false].
Proof.
  assert (Hnd : NoDup (map mf_name ex_fields)) by (cbn; repeat (apply NoDup_cons; [cbn; intuition discriminate|]); apply NoDup_nil).
  intros ops w u'. split; [reflexivity|]. split; [exact Hnd|]. split; [vm_compute; repeat constructor; cbn; intuition discriminate|]. split; [vm_compute; reflexivity|]. split; [|split].
  - let x := eval vm_compute in (field_ops rt_env 10 ex_fields (fun _ => None) (dr_fields (dr_record "a.bin"), []) [FSet ($"data") (OAtom (AInt 5)); FGet ($"data"); FSet ($"data") (OAtom ANone)] (dr_start (OModel 1 (dr_fields (dr_record "a.bin")) []))) in match x with (Ok (?rs, _), _) => exists rs end. vm_compute. reflexivity.
  - eapply h_model; [reflexivity|exact Hnd| |].
    + constructor; [apply dr_rest; left; reflexivity|]. constructor; constructor.
    + intros f v Hf Hno Ha. cbn in Hf. destruct Hf as [<-|[<-|[<-|[]]]]; [| |discriminate Hno].
      * assert (v = OAtom (AInt 3)) as -> by (enough (Hx : Some v = Some (OAtom (AInt 3))) by congruence; rewrite <- Ha; reflexivity). split; [constructor|discriminate].
      * assert (v = OAtom ANone) as -> by (enough (Hx : Some v = Some (OAtom ANone)) by congruence; rewrite <- Ha; reflexivity). split; [constructor|]. intros _. left. reflexivity.
  - let x := eval vm_compute in (save rt_env 10 ex_opts ($"new") (OModel 1 (dr_fields (OAtom ANone)) [dr_record "a.bin"; OAtom (AInt 5)]) (dr_start (OModel 1 (dr_fields (dr_record "a.bin")) []))) in
    match x with (Ok (?o, ?j), ?w1) => exists o, j, w1 end. split; vm_compute; reflexivity.
Qed.

Print Assumptions C70_list_keeps_track.
Print Assumptions C70_dict_keeps_track.
Print Assumptions C70_field_keeps_track.
Print Assumptions C70_list_files.
Print Assumptions C70_dict_files.
Print Assumptions C70_field_files.
