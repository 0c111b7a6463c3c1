(** Records that were dropped from a field are removed again at every save: C69. *)
From Coq Require Import List Ascii String Bool Arith ZArith Lia.
From Verif Require Import Base PosixModel FsModel PathModel SerialModel StoreModel TrackModel ContainerModel FieldModel PropsContainer PropsField StoreFrame StoreMount StoreSpec StoreLocal StorePlace
     StoreRecord StoreSave StoreEvents StoreExample SerialSpec SerialProof RoundSpec KeepSpec SameSpec RoundProof ReplayProof CleanProof DropProof DropSettled KeepProof SameProof ContextProof KeepSave PathSpec MountSpec DirSpec
     PosixProof FsProof DirProof TargetProof MountProof HistoryProof PathFacts PropsStore PropsRepo PropsRound PropsKeep PropsDelete PropsTrack PropsSame PropsReplace.
Import ListNotations.

Local Arguments str_eq_dec : simpl never.
Local Arguments atom_eq_dec : simpl never.

(** ** Specification *)
(** [field_discards comps o q]: somewhere in [o], which belongs to the sub directory [comps], a model has dropped a record
    with the file [q] from one of its fields. *)
Inductive field_discards (E : senv) : list str -> obj -> list str -> Prop :=
| fd_list comps l x q : In x l -> field_discards E comps x q -> field_discards E comps (OList l) q
| fd_dict comps d k x q : In (k, x) d -> field_discards E comps x q -> field_discards E comps (ODict d) q
| fd_in_field comps c fs u fds f v q : k_kind (s_class E c) = SModel fds -> In f fds -> mf_noser f = false -> assoc (mf_name f) fs = Some v ->
    field_discards E comps v q -> field_discards E comps (OModel c fs u) q
| fd_in_item comps q0 s u x q : In x s -> field_discards E comps x q -> field_discards E comps (OSeq q0 s u) q
| fd_in_value comps p s u k x q : In (k, x) s -> field_discards E comps x q -> field_discards E comps (OMap p s u) q
| fd_in_record comps content t pre we re q : field_discards E (comps ++ sub_of t) content q -> field_discards E comps (ORec content t pre we re) q
| fd_dropped comps c fs u x q : In x u -> files_of E comps x q -> field_discards E comps (OModel c fs u) q.

Lemma discards_discarded E comps o q : field_discards E comps o q -> discarded E comps o q.
Proof.
  unfold discarded. induction 1; [eapply del_list|eapply del_dict|eapply del_in_field|eapply del_in_item|eapply del_in_value|eapply del_in_record|]; try eassumption.
  apply del_field. eauto.
Qed.

(** ** Removing leaves the dropped items as they were *)
Section Rest.
Variable E : senv.
Hypothesis Hval : s_validate E = true.
Definition rest (x x' : obj) : Prop := at_rest E x' /\ forall comps q, files_of E comps x q <-> files_of E comps x' q.

Lemma rest_mapM {A C} (f : A -> M C) (ob : A -> obj) (ob' : C -> obj) l : (forall a w y w', In a l -> f a w = (Ok y, w') -> rest (ob a) (ob' y)) ->
  forall w ys w', mapM f l w = (Ok ys, w') -> Forall2 (fun a y => rest (ob a) (ob' y)) l ys.
Proof.
  induction l as [|a l IH]; intros Hf w ys w' H; cbn [mapM] in H.
  - unfold ret in H. injection H as <- _. constructor.
  - apply mbind_ok in H as (y & w1 & H1 & H). apply mbind_ok in H as (ys0 & w2 & H2 & H). unfold ret in H. injection H as <- _. constructor.
    + eapply Hf; [left; reflexivity|eassumption].
    + eapply IH; [|exact H2]. intros b wb z wz Hb. apply Hf. right. assumption.
Qed.
Lemma rest_list l l' : Forall2 rest l l' -> (forall x, In x l' -> at_rest E x) /\
  forall comps q, (exists x, In x l /\ files_of E comps x q) <-> (exists x, In x l' /\ files_of E comps x q).
Proof.
  induction 1 as [|x x' l l' [H1 H2] H [I1 I2]].
  - split; [intros x []|]. reflexivity.
  - split; [intros y [<-|Hy]; auto|]. intros comps q. specialize (H2 comps q). specialize (I2 comps q). split.
    + intros (y & [<-|Hy] & Hq); [exists x'; split; [left; reflexivity|tauto]|]. destruct (proj1 I2 (ex_intro _ y (conj Hy Hq))) as (z & Hz & Hq'). exists z. split; [right|]; assumption.
    + intros (y & [<-|Hy] & Hq); [exists x; split; [left; reflexivity|tauto]|]. destruct (proj2 I2 (ex_intro _ y (conj Hy Hq))) as (z & Hz & Hq'). exists z. split; [right|]; assumption.
Qed.

Section Step.
Variable n : nat.
Hypothesis IH : forall cx x w x' w', at_rest E x -> f_rm (depth E n) cx x w = (Ok x', w') -> rest x x'.

Lemma rest_fields cx fds : NoDup (map mf_name fds) -> forall fs w fs' w',
  (forall f v, In f fds -> mf_noser f = false -> assoc (mf_name f) fs = Some v -> at_rest E v) ->
  rm_fields (depth E n) cx fds fs w = (Ok fs', w') ->
  (forall k, ~ In k (map mf_name fds) -> assoc k fs' = assoc k fs) /\
  (forall f, In f fds -> mf_noser f = false -> exists v v', assoc (mf_name f) fs = Some v /\ assoc (mf_name f) fs' = Some v' /\ rest v v').
Proof.
  induction fds as [|f fds IHf]; intros Hnd fs w fs' w' Hs H; cbn [rm_fields] in H.
  - unfold ret in H. injection H as <- _. split; [reflexivity|intros f []].
  - cbn [map] in Hnd |- *. inversion Hnd as [|? ? Hnin Hnd']; subst. destruct (mf_noser f) eqn:Eno.
    + destruct (IHf Hnd' fs w fs' w') as [G1 G2]; [intros f0 v Hf0; apply Hs; right; assumption|assumption|]. split.
      * intros k Hk. apply G1. intros Hx. apply Hk. right. assumption.
      * intros f0 [<-|Hf0]; [congruence|]. apply G2. assumption.
    + destruct (assoc (mf_name f) fs) as [v|] eqn:Ea; [|discriminate]. apply mbind_ok in H as (v' & w1 & H1 & H).
      pose proof (IH cx v w v' w1 (Hs f v (or_introl eq_refl) Eno Ea) H1) as R1.
      assert (Hoth : forall f0, In f0 fds -> assoc (mf_name f0) (assoc_set (mf_name f) v' fs) = assoc (mf_name f0) fs).
      { intros f0 Hf0. apply assoc_set_other. intros Hx. apply Hnin. first [rewrite Hx|rewrite <- Hx]; apply in_map; assumption. }
      destruct (IHf Hnd' (assoc_set (mf_name f) v' fs) w1 fs' w') as [G1 G2]; [|assumption|].
      { intros f0 v0 Hf0 Hno Ha. rewrite Hoth in Ha by assumption. apply (Hs f0 v0); [right; assumption|assumption|assumption]. }
      split.
      * intros k Hk. rewrite G1 by (intros Hx; apply Hk; right; assumption). apply assoc_set_other. intros Hx. apply Hk. left. congruence.
      * intros f0 [<-|Hf0] Hno.
        -- exists v, v'. rewrite (G1 (mf_name f)) by assumption. rewrite assoc_set_same. auto.
        -- destruct (G2 f0 Hf0 Hno) as (v0 & v0' & Ha & Hb & Hc). rewrite Hoth in Ha by assumption. eauto.
Qed.
Lemma rest_rec cx content t pre we re cs w o' w' : at_rest E content \/ (exists ty tt b c1 c, content = OUnloaded (Some ty) tt b c1 /\ sto_ty E ty = Some (STLeaf c)) ->
  places t cs -> rm_rec E (depth E n) cx content t pre we re w = (Ok o', w') -> rest (ORec content t pre we re) o'.
Proof.
  intros Hcon Hp H. unfold rm_rec in H. apply mbind_ok in H as ([[v c'] re'] & w1 & H1 & H).
  assert (Hload : rest content c' /\ forall m, v <> OMark m).
  { destruct Hcon as [Hs|(ty & tt & b & c1 & c & -> & Hty)].
    - assert (Hw : c' = content /\ v = content) by (inversion Hs; subst; cbn [rec_load] in H1; unfold ret in H1; injection H1 as <- <- _ <-; auto).
      destruct Hw as (-> & ->). split; [split; [assumption|reflexivity]|]. intros m ->. inversion Hs.
    - pose proof (load_unmarked E n (OUnloaded (Some ty) tt b c1) re w v c' re' w1 Hval ltac:(discriminate) H1) as Hmk.
      destruct (waiting_quiet E Hval _ _ _ _ _ _ _ _ _ _ _ _ Hty H1) as (_ & _ & (d & ->)). split; [|exact Hmk]. split; [constructor|].
      intros comps q. split; intros Hx; inversion Hx. }
  destruct Hload as (Hs & Hv). clear H1 Hcon.
  assert (H' : (t' <- rec_target E c' t;; a <- lift (ctx_absolute cx t');; p <- lift (fspath a);; r <- attempt (m_remove E (c_mnt cx) p);;
      _ <- match r with Ok _ | Exn MountException => ret tt | Exn e => raise e end;;
      v' <- f_rm (depth E n) (ctx_join cx match t_subdir a with Some d => d | None => [] end) c';; ret (ORec v' t' pre we re')) w1 = (Ok o', w')).
  { destruct v; try exact H. exfalso. eapply Hv. reflexivity. }
  clear H. apply mbind_ok in H' as (t' & w2 & H2 & H).
  assert (Ht : t' = t /\ w2 = w1).
  { destruct Hp as (sd & nm & P1 & P2 & _). unfold rec_target in H2. destruct t as [s0 s1 s2]. cbn in P1. subst s0. unfold t_name in P2. cbn in P2.
    destruct s1 as [s1|]; [|discriminate]. destruct s2 as [s2|]; [|discriminate]. cbn in H2. unfold ret in H2. injection H2 as <- <-. auto. }
  destruct Ht as [-> ->]. clear H2.
  apply mbind_ok in H as (a' & w2 & _ & H). apply mbind_ok in H as (p' & w3 & _ & H). apply mbind_ok in H as (r & w4 & _ & H). apply mbind_ok in H as (u & w5 & _ & H).
  apply mbind_ok in H as (v' & w6 & H4 & H). unfold ret in H. injection H as <- _. destruct Hs as [Hs Hfo].
  destruct (IH _ _ _ _ _ Hs H4) as [R1 R2]. split; [econstructor; eassumption|]. intros comps q. specialize (R2 (comps ++ sub_of t) q). specialize (Hfo (comps ++ sub_of t) q). split.
  - intros Hx. inversion Hx; subst; [apply fo_record; assumption|apply fo_content; tauto].
  - intros Hx. inversion Hx; subst; [apply fo_record; assumption|apply fo_content; tauto].
Qed.
Lemma rest_step cx x w x' w' : at_rest E x -> f_rm (depth E (S n)) cx x w = (Ok x', w') -> rest x x'.
Proof.
  intros Hs H. cbn [depth f_rm] in H. unfold rm_body in H.
  inversion Hs as [a|l Hl|d Hd|c d|c fs fds Hk Hn Hf|p s u Hl|p s u Hl|content t pre we re cs Hcn Hp|ty tt b c1 c t pre we re cs Hty Hp]; subst.
  - unfold ret in H. injection H as <- _. split; [constructor|reflexivity].
  - apply mbind_ok in H as (l' & w1 & H1 & H). unfold ret in H. injection H as <- _.
    pose proof (rest_mapM _ (fun o => o) (fun o => o) l (fun a wa y wy Ha => IH cx a wa y wy (Hl a Ha)) _ _ _ H1) as R. apply rest_list in R as [R1 R2].
    split; [constructor; assumption|]. intros comps q. specialize (R2 comps q). split; intros Hx; inversion Hx; subst; [destruct (proj1 R2) as (y & Hy & Hq)|destruct (proj2 R2) as (y & Hy & Hq)]; eauto; econstructor; eassumption.
  - apply mbind_ok in H as (l' & w1 & H1 & H). unfold ret in H. injection H as <- _.
    assert (R : Forall2 (fun a y : atom * obj => rest (snd a) (snd y)) d l').
    { eapply rest_mapM; [|exact H1]. intros [k y] w0 z w2 Hy Hz. apply mbind_ok in Hz as (v & w3 & Hz & Hz2). unfold ret in Hz2. injection Hz2 as <- _. eapply IH; [|exact Hz]. eapply Hd. exact Hy. }
    assert (R' : Forall2 rest (map snd d) (map snd l')) by (clear - R; induction R; constructor; assumption). apply rest_list in R' as [R1 R2].
    split; [constructor; intros k x Hx; apply R1; apply (in_map snd) in Hx; exact Hx|]. intros comps q. specialize (R2 comps q). split; intros Hx; inversion Hx as [|? ? k y ? Hy Hq| | | | |]; subst.
    + destruct (proj1 R2) as (z & Hz & Hzq); [exists y; split; [apply (in_map snd) in Hy; exact Hy|assumption]|]. apply in_map_iff in Hz as ([k1 z1] & <- & Hz). econstructor; eassumption.
    + destruct (proj2 R2) as (z & Hz & Hzq); [exists y; split; [apply (in_map snd) in Hy; exact Hy|assumption]|]. apply in_map_iff in Hz as ([k1 z1] & <- & Hz). econstructor; eassumption.
  - unfold ret in H. injection H as <- _. split; [constructor|reflexivity].
  - apply mbind_ok in H as (u' & w1 & H1 & H). assert (u' = []) by (destruct (s_clean E); cbn [mapM] in H1; unfold ret in H1; injection H1; auto). subst u'.
    rewrite Hk in H. apply mbind_ok in H as (fs' & w2 & H2 & H). unfold ret in H. injection H as <- _.
    destruct (rest_fields cx fds Hn fs _ fs' _ Hf H2) as [G1 G2]. split.
    + econstructor; [eassumption|assumption|]. intros f v Hf0 Hno Ha. destruct (G2 f Hf0 Hno) as (v0 & v1 & _ & Hb & Hc & _). congruence.
    + intros comps q. split; intros Hx; inversion Hx as [| |cs0 c0 fs0 u0 fds0 f v q0 Hk0 Hf0 Hno Ha Hq0| | | |]; subst; rewrite Hk in Hk0; injection Hk0 as <-;
        destruct (G2 f Hf0 Hno) as (v0 & v1 & Hb & Hb' & _ & Hc); econstructor; try eassumption; specialize (Hc comps q).
      * replace v with v0 in * by congruence. tauto.
      * replace v with v1 in * by congruence. tauto.
  - apply mbind_ok in H as (l' & w1 & H1 & H). unfold ret in H. injection H as <- _.
    pose proof (rest_mapM _ (fun o => o) (fun o => o) s (fun a wa y wy Ha => IH cx a wa y wy (Hl a Ha)) _ _ _ H1) as R. apply rest_list in R as [R1 R2].
    split; [constructor; assumption|]. intros comps q. specialize (R2 comps q). split; intros Hx; inversion Hx; subst; [destruct (proj1 R2) as (y & Hy & Hq)|destruct (proj2 R2) as (y & Hy & Hq)]; eauto; econstructor; eassumption.
  - apply mbind_ok in H as (l' & w1 & H1 & H). unfold ret in H. injection H as <- _.
    assert (R : Forall2 (fun a y : str * obj => rest (snd a) (snd y)) s l').
    { eapply rest_mapM; [|exact H1]. intros [k y] w0 z w2 Hy Hz. apply mbind_ok in Hz as (v & w3 & Hz & Hz2). unfold ret in Hz2. injection Hz2 as <- _. eapply IH; [|exact Hz]. eapply Hl. exact Hy. }
    assert (R' : Forall2 rest (map snd s) (map snd l')) by (clear - R; induction R; constructor; assumption). apply rest_list in R' as [R1 R2].
    split; [constructor; intros k x Hx; apply R1; apply (in_map snd) in Hx; exact Hx|]. intros comps q. specialize (R2 comps q). split; intros Hx; inversion Hx as [| | | |? ? ? ? k y ? Hy Hq| |]; subst.
    + destruct (proj1 R2) as (z & Hz & Hzq); [exists y; split; [apply (in_map snd) in Hy; exact Hy|assumption]|]. apply in_map_iff in Hz as ([k1 z1] & <- & Hz). econstructor; eassumption.
    + destruct (proj2 R2) as (z & Hz & Hzq); [exists y; split; [apply (in_map snd) in Hy; exact Hy|assumption]|]. apply in_map_iff in Hz as ([k1 z1] & <- & Hz). econstructor; eassumption.
  - eapply rest_rec; eauto.
  - eapply rest_rec; eauto 10.
Qed.
End Step.
Theorem rm_rest n : forall cx x w x' w', at_rest E x -> f_rm (depth E n) cx x w = (Ok x', w') -> rest x x'.
Proof. induction n as [|n IH]; [discriminate|apply rest_step; exact IH]. Qed.
Lemma rm_all_rest n cx u w r w' : Forall (at_rest E) u -> rm_all (depth E n) cx u w = (Ok r, w') ->
  Forall (at_rest E) r /\ forall comps q, (exists x, In x u /\ files_of E comps x q) <-> (exists x, In x r /\ files_of E comps x q).
Proof.
  intros Hu H. destruct cx as [cx|].
  - cbn [rm_all] in H. rewrite Forall_forall in Hu. pose proof (rest_mapM _ (fun o => o) (fun o => o) u (fun a wa y wy Ha => rm_rest n cx a wa y wy (Hu a Ha)) _ _ _ H) as R.
    apply rest_list in R as [R1 R2]. split; [apply Forall_forall; assumption|assumption].
  - cbn in H. unfold ret in H. injection H as <- _. split; [assumption|]. reflexivity.
Qed.
End Rest.

(** ** C69 *)
Section Kept.
Variable E : senv.
Definition same_files (u u' : list obj) : Prop := forall comps q, (exists x, In x u /\ files_of E comps x q) <-> (exists x, In x u' /\ files_of E comps x q).
Notation same := (same_with same_files (fun _ _ => True)).
Lemma same_assoc k (fs fs' : list (str * obj)) v : Forall2 (fun a b => fst a = fst b /\ same (snd a) (snd b)) fs fs' ->
  assoc k fs = Some v -> exists v', assoc k fs' = Some v' /\ same v v'.
Proof. intros H Ha. pose proof (assoc_two same_files (fun _ _ => True) k fs fs' H) as Hx. rewrite Ha in Hx. destruct (assoc k fs') as [v'|]; [eauto|contradiction]. Qed.
Lemma same_assoc' k (fs fs' : list (str * obj)) v : Forall2 (fun a b => fst a = fst b /\ same (snd a) (snd b)) fs fs' ->
  assoc k fs' = Some v -> exists v', assoc k fs = Some v' /\ same v' v.
Proof. intros H Ha. pose proof (assoc_two same_files (fun _ _ => True) k fs fs' H) as Hx. rewrite Ha in Hx. destruct (assoc k fs) as [v'|]; [eauto|contradiction]. Qed.
Lemma two_in {A B} (R : A -> B -> Prop) l l' x : Forall2 R l l' -> In x l -> exists y, In y l' /\ R x y.
Proof. induction 1 as [|a b l l' H1 H IH]; [intros []|]. intros [<-|Hx]; [exists b; split; [left; reflexivity|assumption]|]. destruct (IH Hx) as (y & Hy & Hs). exists y. split; [right|]; assumption. Qed.
Lemma two_in' {A B} (R : A -> B -> Prop) l l' y : Forall2 R l l' -> In y l' -> exists x, In x l /\ R x y.
Proof. induction 1 as [|a b l l' H1 H IH]; [intros []|]. intros [<-|Hx]; [exists a; split; [left; reflexivity|assumption]|]. destruct (IH Hx) as (x & Hy & Hs). exists x. split; [right|]; assumption. Qed.
Lemma discards_kept comps o q : field_discards E comps o q -> forall o', same o o' -> field_discards E comps o' q.
Proof.
  induction 1 as [comps l x q Hx H IH|comps d k x q Hx H IH|comps c fs u fds f v q Hk Hf Hno Ha H IH|comps q0 s u x q Hx H IH|comps p s u k x q Hx H IH|comps content t pre we re q H IH|comps c fs u x q Hx Hq]; intros o' Hs;
    inversion Hs as [o1|l1 l2 Hl|d1 d2 Hd|c1 fs1 fs2 u1 u2 Hu Hfs|q1 s1 s2 u1 u2 Hu Hl|p1 s1 s2 u1 u2 Hu Hl|c1 c2 t1 t2 pre1 Hc Hsub|ty tt b cx t1 pre1]; subst.
  - eapply fd_list; eassumption.
  - destruct (two_in _ _ _ _ Hl Hx) as (y & Hy & Hsy). eapply fd_list; eauto.
  - eapply fd_dict; eassumption.
  - destruct (two_in _ _ _ _ Hd Hx) as ([k1 y] & Hy & H1 & Hsy). cbn in H1, Hsy. subst k1. eapply fd_dict; eauto.
  - eapply fd_in_field; eassumption.
  - destruct (same_assoc _ _ _ _ Hfs Ha) as (v' & Hv' & Hsv). eapply fd_in_field; eauto.
  - eapply fd_in_item; eassumption.
  - destruct (two_in _ _ _ _ Hl Hx) as (y & Hy & Hsy). eapply fd_in_item; eauto.
  - eapply fd_in_value; eassumption.
  - destruct (two_in _ _ _ _ Hl Hx) as ([k1 y] & Hy & H1 & Hsy). cbn in H1, Hsy. subst k1. eapply fd_in_value; eauto.
  - eapply fd_in_record; eassumption.
  - eapply fd_in_record. rewrite Hsub. auto.
  - inversion H.
  - eapply fd_dropped; eassumption.
  - destruct (proj1 (Hu comps q) (ex_intro _ x (conj Hx Hq))) as (y & Hy & Hyq). eapply fd_dropped; eassumption.
Qed.
Lemma discards_before comps o' q : field_discards E comps o' q -> forall o, same o o' -> field_discards E comps o q.
Proof.
  induction 1 as [comps l x q Hx H IH|comps d k x q Hx H IH|comps c fs u fds f v q Hk Hf Hno Ha H IH|comps q0 s u x q Hx H IH|comps p s u k x q Hx H IH|comps content t pre we re q H IH|comps c fs u x q Hx Hq]; intros o Hs;
    inversion Hs as [o1|l1 l2 Hl|d1 d2 Hd|c1 fs1 fs2 u1 u2 Hu Hfs|q1 s1 s2 u1 u2 Hu Hl|p1 s1 s2 u1 u2 Hu Hl|c1 c2 t1 t2 pre1 Hc Hsub|ty tt b cx t1 pre1]; subst.
  - eapply fd_list; eassumption.
  - destruct (two_in' _ _ _ _ Hl Hx) as (y & Hy & Hsy). eapply fd_list; eauto.
  - eapply fd_dict; eassumption.
  - destruct (two_in' _ _ _ _ Hd Hx) as ([k1 y] & Hy & H1 & Hsy). cbn in H1, Hsy. subst k1. eapply fd_dict; eauto.
  - eapply fd_in_field; eassumption.
  - destruct (same_assoc' _ _ _ _ Hfs Ha) as (v' & Hv' & Hsv). eapply fd_in_field; eauto.
  - eapply fd_in_item; eassumption.
  - destruct (two_in' _ _ _ _ Hl Hx) as (y & Hy & Hsy). eapply fd_in_item; eauto.
  - eapply fd_in_value; eassumption.
  - destruct (two_in' _ _ _ _ Hl Hx) as ([k1 y] & Hy & H1 & Hsy). cbn in H1, Hsy. subst k1. eapply fd_in_value; eauto.
  - eapply fd_in_record; eassumption.
  - eapply fd_in_record. rewrite <- Hsub. auto.
  - inversion H.
  - eapply fd_dropped; eassumption.
  - destruct (proj2 (Hu comps q) (ex_intro _ x (conj Hx Hq))) as (y & Hy & Hyq). eapply fd_dropped; eassumption.
Qed.
End Kept.
(** If nothing waits in lists and dicts, what is discarded are dropped fields. *)
Lemma only_fields UM E w dir comps o q : holds_two UM (fun _ u => u = []) E w dir comps o -> discarded E comps o q -> field_discards E comps o q.
Proof.
  unfold discarded. intros H Hd. revert H. induction Hd as [comps l x q Hx Hd IH|comps d k x q Hx Hd IH|comps c fs u fds f v q Hk Hf Hno Ha Hd IH|comps q0 s u x q Hx Hd IH
    |comps p s u k x q Hx Hd IH|comps content t pre we re q Hd IH|comps c fs u q Hr|comps p s u q Hr|comps p s u q Hr]; intros H; inversion H; subst.
  - eapply fd_list; eauto.
  - eapply fd_dict; [eassumption|]. apply IH. match goal with G : context [exists s0, _ = AStr s0 /\ _] |- _ => apply (G k x Hx) end.
  - match goal with G : k_kind _ = SModel ?f2 |- _ => rewrite Hk in G; injection G as <- end.
    eapply fd_in_field; try eassumption. apply IH. match goal with G : context [mf_default] |- _ => apply (G f v Hf Hno Ha) end.
  - eapply fd_in_item; eauto.
  - eapply fd_in_value; eauto.
  - eapply fd_in_record. apply IH. unfold sub_of. match goal with G : context [named_component] |- _ => apply G end. destruct (t_subdir t); auto.
  - inversion Hd.
  - destruct Hr as (x & Hx & Hq). eapply fd_dropped; eassumption.
  - destruct Hr as (x & [] & _).
  - destruct Hr as (x & [] & _).
Qed.

(** A save leaves the dropped records of models waiting, while those of lists and dicts are forgotten; so the next save of
    the same object removes the files of the former again, whoever has written them in the meantime, and no others. *)
Theorem C69_removed_at_every_save : forall E n p k o w o' j w',
  absolute (s_cwd E) -> absolute (o_base p) -> registered_classes E -> ordinary_uuids E -> faithful_methods E ->
  reads_determined E -> plain_defaults E ->
  s_retouch E = $"auto" \/ s_retouch E = $"quit" -> s_validate E = true -> s_clean E = true ->
  plain k -> k <> $".gitignore" ->
  well_formed (w_fs w) -> holds_settled E w (key_dir p k) [] o -> save E n p k o w = (Ok (o', j), w') ->
  let left := saved_content E o o' in
  let dir := location (s_cwd E) (key_dir p k) in
  holds_settled E w' (key_dir p k) [] left /\
  (forall q, discarded E [] left q <-> field_discards E [] o q) /\
  forall n2 w2 o2 j2 w3, well_formed (w_fs w2) -> holds_settled E w2 (key_dir p k) [] left -> save E n2 p k left w2 = (Ok (o2, j2), w3) ->
    forall q, ~ own_ignore E p k (dir ++ q) ->
      (field_discards E [] o q -> file_at (w_fs w3) (dir ++ q) = None \/ happened w2 w3 (EvWrite (dir ++ q))) /\
      (~ field_discards E [] o q -> ~ happened w2 w3 (EvWrite (dir ++ q)) -> file_at (w_fs w3) (dir ++ q) = file_at (w_fs w2) (dir ++ q)).
Proof.
  intros E n p k o w o' j w' Hc Hb Hreg Huid Hfai Hdet Hdef Hret Hval Hcq Hk Hgi Hw Hbu H left dir.
  destruct (saved_same E n p k o w o' j w' (fun _ u => Forall (at_rest E) u) (fun _ u => Forall (at_rest E) u) (fun _ u => u = []) (same_files E) (fun _ _ => True)) as [S1 S2];
    try assumption; try (intros; exact I); try reflexivity; try (intros; congruence).
  - intros comps u n0 cx w0 r w1 _ Hu Hr. eapply (rm_all_rest E Hval); eassumption.
  - intros comps u n0 cx w0 r w1 _ Hu Hr. exact (proj2 (rm_all_rest E Hval n0 cx u w0 r w1 Hu Hr)).
  - fold left in S1, S2.
    assert (Hiff : forall q, discarded E [] left q <-> field_discards E [] o q).
    { intros q. split; intros Hq.
      - eapply discards_before; [|exact S1]. eapply only_fields; eassumption.
      - apply discards_discarded. eapply discards_kept; eassumption. }
    split; [|split; [exact Hiff|]].
    + revert S2. apply holds_two_mono; [auto|]. intros cs u ->. constructor.
    + intros n2 w2 o2 j2 w3 Hw2 Hb2 H2 q Hown. destruct (settled_save E n2 p k left w2 o2 j2 w3) as (_ & G1 & G2); trivial. split.
      * intros Hq. apply G1; [apply Hiff; assumption|assumption].
      * intros Hq. apply G2; [rewrite Hiff; assumption|assumption].
Qed.
(** Any number of saves of the same object, with other things happening in between. *)
Inductive saves (E : senv) (p : opts) (k : str) : obj -> obj -> Prop :=
| sv_none o : saves E p k o o
| sv_more n o w o' j w' o2 : well_formed (w_fs w) -> holds_settled E w (key_dir p k) [] o -> save E n p k o w = (Ok (o', j), w') ->
    saves E p k (saved_content E o o') o2 -> saves E p k o o2.
Theorem C69_forever : forall E p k o left,
  absolute (s_cwd E) -> absolute (o_base p) -> registered_classes E -> ordinary_uuids E -> faithful_methods E ->
  reads_determined E -> plain_defaults E ->
  s_retouch E = $"auto" \/ s_retouch E = $"quit" -> s_validate E = true -> s_clean E = true ->
  plain k -> k <> $".gitignore" -> saves E p k o left ->
  let dir := location (s_cwd E) (key_dir p k) in
  forall q, field_discards E [] o q -> ~ own_ignore E p k (dir ++ q) ->
  forall n w o' j w', well_formed (w_fs w) -> holds_settled E w (key_dir p k) [] left -> save E n p k left w = (Ok (o', j), w') ->
    file_at (w_fs w') (dir ++ q) = None \/ happened w w' (EvWrite (dir ++ q)).
Proof.
  intros E p k o left Hc Hb Hreg Huid Hfai Hdet Hdef Hret Hval Hcq Hk Hgi Hsv dir.
  enough (Hx : forall q, field_discards E [] o q -> discarded E [] left q).
  { intros q Hq Hown n w o' j w' Hw Hbu H. destruct (settled_save E n p k left w o' j w') as (_ & G & _); trivial. apply G; [|assumption]. apply Hx. assumption. }
  enough (Hx : forall q, field_discards E [] o q -> field_discards E [] left q) by (intros q Hq; apply discards_discarded, Hx, Hq).
  induction Hsv as [o|n o w o' j w' o2 Hw Hbu H Hsv IH]; intros q Hq; [assumption|]. apply IH.
  destruct (saved_same E n p k o w o' j w' (fun _ u => Forall (at_rest E) u) (fun _ _ => True) (fun _ _ => True) (same_files E) (fun _ _ => True)) as [S1 _];
    try assumption; try (intros; exact I); try reflexivity; try (intros; congruence).
  - intros comps u n0 cx w0 r w1 _ Hu Hr. exact (proj2 (rm_all_rest E Hval n0 cx u w0 r w1 Hu Hr)).
  - eapply discards_kept; eassumption.
Qed.
(** Assigning None to a record field drops its record: the file becomes one of those. *)
Theorem C69_cleared_field : forall E N c fds pre f t0 pl0 fs unused content t pl we re cs comps w r fs' unused' w',
  k_kind (s_class E c) = SModel fds -> NoDup (map mf_name fds) -> In f fds -> mf_wrap f = Some (t0, pl0) -> pre (mf_name f) = None -> s_clean E = true ->
  assoc (mf_name f) fs = Some (ORec content t pl we re) -> places t cs ->
  field_set E N fds pre (fs, unused) (mf_name f) (OAtom ANone) w = (Ok (r, (fs', unused')), w') ->
  assoc (mf_name f) fs' = Some (OAtom ANone) /\ field_discards E comps (OModel c fs' unused') (comps ++ cs).
Proof.
  intros E N c fds pre f t0 pl0 fs u content t pl we re cs comps w r fs' u' w' Hk Hn Hi Hwr Hp Hcq Ha Hpl H.
  unfold field_set in H. rewrite (wrap_in fds (mf_name f) f), Hwr in H by trivial. cbn [is_record] in H. unfold pre_set in H. rewrite Hp in H.
  unfold record_set in H. cbn [is_storable sto_name] in H. rewrite Ha, Hcq in H. unfold ret in H. injection H as _ <- <- _.
  split; [apply assoc_set_same|]. eapply fd_dropped; [apply in_or_app; right; left; reflexivity|]. apply fo_record. assumption.
Qed.

(** ** An example *)
(** A list with a pair: the program clears the record field and saves, then inserts a record with the same file name before
    the pair and saves again; the second save writes the file, removes it, and returns without an error. *)
Definition sl_record (s : string) : obj := ORec (blob s) (from_path ($"d.bin")) false None None.
Definition sl_fields (o : obj) : list (str * obj) := [($"name", OAtom (AInt 3)); ($"data", o); ($"tmp", OAtom (AInt 7))].
Definition sl_list : obj := OList [OModel 1 (sl_fields (OAtom ANone)) [sl_record "old"]].
Definition sl_left : obj := match save rt_env 10 ex_opts ($"new") sl_list ex_world with (Ok (o', _), _) => saved_content rt_env sl_list o' | _ => sl_list end.
Definition sl_world : world := snd (save rt_env 10 ex_opts ($"new") sl_list ex_world).
Lemma sl_places : places (from_path ($"d.bin")) [$"d.bin"].
Proof.
  exists [], ($"d.bin"). repeat split; try discriminate; cbn; try (intros Hx; repeat destruct Hx as [Hx|Hx]; try discriminate; contradiction).
  intros [x Hx]. discriminate.
Qed.
Lemma sl_rest s : at_rest rt_env (sl_record s).
Proof. eapply st_rec; [constructor|apply sl_places]. Qed.
Lemma sl_ordinary c : ordinary rt_env c (from_path ($"d.bin")).
Proof.
  intros sd st su [Hsd|[Hsd _]] [Hst|[Hst _]] [Hsu|[Hsu _]]; try discriminate.
  vm_compute in Hsd, Hst, Hsu. assert (sd = []) as -> by (vm_compute; congruence). assert (st = $"d") as -> by (vm_compute; congruence). assert (su = $".bin") as -> by (vm_compute; congruence).
  repeat split; try discriminate; cbn; try (intros Hx; repeat destruct Hx as [Hx|Hx]; try discriminate; contradiction). intros [x Hx]. discriminate.
Qed.
Lemma sl_holds w l u : (forall x, In x l -> x = sl_record "new") -> Forall (at_rest rt_env) u ->
  holds_settled rt_env w (key_dir ex_opts ($"new")) [] (OList (l ++ [OModel 1 (sl_fields (OAtom ANone)) u])).
Proof.
  intros Hl Hu. unfold holds_settled. apply h_list. intros x Hx. apply in_app_or in Hx as [Hx|[<-|[]]].
  - rewrite (Hl x Hx). apply h_rec; [|apply sl_ordinary]. intros sd _. eapply h_leaf; reflexivity.
  - eapply h_model; [reflexivity| |assumption|].
    + cbn. repeat (apply NoDup_cons; [intros Hy; cbn in Hy; repeat destruct Hy as [Hy|Hy]; try discriminate; contradiction|]). apply NoDup_nil.
    + intros f v Hf Hno Ha. cbn in Hf. destruct Hf as [<-|[<-|[<-|[]]]]; [| |discriminate Hno].
      * assert (v = OAtom (AInt 3)) as -> by (enough (Hx : Some v = Some (OAtom (AInt 3))) by congruence; rewrite <- Ha; reflexivity). split; [constructor|discriminate].
      * assert (v = OAtom ANone) as -> by (enough (Hx : Some v = Some (OAtom ANone)) by congruence; rewrite <- Ha; reflexivity). split; [constructor|]. intros _. left. reflexivity.
Qed.
Example C69_example :
  s_clean rt_env = true /\ well_formed (w_fs ex_world) /\ well_formed (w_fs sl_world) /\
  field_set rt_env 10 ex_fields (fun _ => None) (sl_fields (sl_record "old"), []) ($"data") (OAtom ANone) ex_world =
    (Ok (Ok (OAtom ANone), (sl_fields (OAtom ANone), [sl_record "old"])), ex_world) /\
  holds_settled rt_env ex_world (key_dir ex_opts ($"new")) [] sl_list /\ field_discards rt_env [] sl_list [$"d.bin"] /\
  (exists j, save rt_env 10 ex_opts ($"new") sl_list ex_world = (Ok (sl_list, j), sl_world)) /\ sl_left = sl_list /\ saves rt_env ex_opts ($"new") sl_list sl_left /\
  let dir := location (s_cwd rt_env) (key_dir ex_opts ($"new")) in
  let next := OList [sl_record "new"; OModel 1 (sl_fields (OAtom ANone)) [sl_record "old"]] in
  holds_settled rt_env sl_world (key_dir ex_opts ($"new")) [] next /\
  exists o' j w', save rt_env 10 ex_opts ($"new") next sl_world = (Ok (o', j), w') /\
    existsb (fun e => match e with EvWrite l => if loc_eq_dec l (dir ++ [$"d.bin"]) then true else false | _ => false end) (w_log w') = true /\
    file_at (w_fs w') (dir ++ [$"d.bin"]) = None.
Proof.
  assert (H1 : exists j, save rt_env 10 ex_opts ($"new") sl_list ex_world = (Ok (sl_list, j), sl_world)).
  { let x := eval vm_compute in (save rt_env 10 ex_opts ($"new") sl_list ex_world) in match x with (Ok (_, ?j), _) => exists j end. vm_compute. reflexivity. }
  assert (H2 : holds_settled rt_env ex_world (key_dir ex_opts ($"new")) [] sl_list).
  { apply (sl_holds ex_world [] [sl_record "old"]); [intros x []|]. constructor; [apply sl_rest|constructor]. }
  assert (H3 : sl_left = sl_list) by (vm_compute; reflexivity).
  assert (H4 : well_formed (w_fs ex_world)) by (vm_compute; repeat constructor; cbn; intuition discriminate).
  split; [reflexivity|]. split; [exact H4|]. split; [vm_compute; repeat constructor; cbn; intuition discriminate|].
  split; [vm_compute; reflexivity|]. split; [exact H2|].
  split; [eapply fd_list; [left; reflexivity|]; eapply fd_dropped; [left; reflexivity|]; apply (fo_record rt_env [] _ _ _ _ _ [$"d.bin"]); apply sl_places|].
  split; [exact H1|]. split; [exact H3|]. split.
  { destruct H1 as [j Hj]. rewrite H3. eapply sv_more; [exact H4|exact H2|exact Hj|]. replace (saved_content rt_env sl_list sl_list) with sl_list by (vm_compute; reflexivity). apply sv_none. }
  intros dir next. split.
  { apply (sl_holds sl_world [sl_record "new"] [sl_record "old"]); [intros x [<-|[]]; reflexivity|]. constructor; [apply sl_rest|constructor]. }
  let x := eval vm_compute in (save rt_env 10 ex_opts ($"new") (OList [sl_record "new"; OModel 1 (sl_fields (OAtom ANone)) [sl_record "old"]]) sl_world) in
  match x with (Ok (?o, ?j), ?w') => exists o, j, w' end.
  split; [vm_compute; reflexivity|]. split; vm_compute; reflexivity.
Qed.

Print Assumptions C69_removed_at_every_save.
Print Assumptions C69_forever.
Print Assumptions C69_cleared_field.
