(** C44: instances of a compact modelclass. *)
From Coq Require Import List Ascii String Bool Arith Lia.
From Verif Require Import Base PosixModel FsModel StoreModel CompactModel FsProof.
Import ListNotations.
Local Arguments str_eq_dec : simpl never.

Lemma nth_set {A} k j (x d : A) l : nth j (set_nth k x l) d = if (j =? k) && (j <? List.length l) then x else nth j l d.
Proof.
  revert k j. induction l as [|y l IH]; intros k j; cbn [set_nth].
  - rewrite andb_false_r || idtac. destruct k, j; cbn; rewrite ?andb_false_r; reflexivity.
  - destruct k as [|k], j as [|j]; cbn [set_nth nth Nat.eqb andb]; try reflexivity.
    rewrite IH. reflexivity.
Qed.
Lemma set_nth_length {A} k (x : A) l : List.length (set_nth k x l) = List.length l.
Proof. revert k. induction l as [|y l IH]; intros [|k]; cbn; auto. Qed.
Definition has {A} (t : list (str * A)) (n : str) : Prop := assoc n t <> None.
Lemma has_set {A} n m (v : A) t : has t n -> has (assoc_set m v t) n.
Proof. unfold has. intros H. destruct (str_eq_dec m n) as [->|Hn]; [rewrite assoc_set_same; discriminate|rewrite assoc_set_other by exact Hn; exact H]. Qed.
Lemma has_set_same {A} n (v : A) t : has (assoc_set n v t) n.
Proof. unfold has. rewrite assoc_set_same. discriminate. Qed.

Section Compact.
Variables (fields : list fld) (clean : bool) (removable : str -> bool) (misread : str -> str -> val).
Notation set_record := (set_record clean removable).
Notation set_field := (set_field clean removable).

(** The class has a table: no instance gets one of its own, and no entry disappears. *)
Record ext (h h' : heap) : Prop := mkExt {
  x_len : List.length (h_insts h') = List.length (h_insts h);
  x_own : forall k, i_own (inst_at h k) = None -> i_own (inst_at h' k) = None;
  x_tab : forall t, h_class h = Some t -> exists t', h_class h' = Some t' /\ forall n, has t n -> has t' n }.
Lemma ext_refl h : ext h h. Proof. constructor; eauto. Qed.
Lemma ext_trans a b c : ext a b -> ext b c -> ext a c.
Proof.
  intros [A1 A2 A3] [B1 B2 B3]. constructor; [congruence|auto|]. intros t Ht. destruct (A3 t Ht) as (t1 & H1 & K1). destruct (B3 t1 H1) as (t2 & H2 & K2). eauto.
Qed.
Lemma own_set h k i j cl rs : i_own i = i_own (inst_at h k) \/ i_own i <> None /\ i_own (inst_at h k) <> None ->
  i_own (inst_at h j) = None -> i_own (inst_at (mkHeap cl (set_nth k i (h_insts h)) rs) j) = None.
Proof.
  intros H Hj. unfold inst_at in *. cbn [h_insts]. rewrite nth_set. destruct ((j =? k) && _) eqn:Ej; [|exact Hj].
  apply andb_prop in Ej as [Ej _]. apply Nat.eqb_eq in Ej. subst j. destruct H as [H|[_ H]]; congruence.
Qed.
Lemma set_record_ext h k n v t : h_class h = Some t -> ext h (set_record h k n v).
Proof.
  intros Hc.
  assert (Hp : forall a u rs n' x, ext h (put_table (mkHeap (h_class h) (h_insts h) rs) k (mkInst a (i_own (inst_at h k)) u) (assoc_set n' x (table_of h (inst_at h k))))).
  { intros a u rs n' x. unfold put_table. cbn [i_own h_class h_insts h_recs i_attrs i_unused]. rewrite Hc. destruct (i_own (inst_at h k)) as [o|] eqn:Eo.
    - constructor; cbn [h_insts h_class]; [apply set_nth_length| |rewrite Hc; eauto]. intros j Hj. apply own_set; [right; cbn; split; congruence|exact Hj].
    - constructor; cbn [h_insts h_class]; [apply set_nth_length| |].
      + intros j Hj. apply own_set; [left; cbn; congruence|exact Hj].
      + intros t' Ht'. replace t' with t in * by congruence. eexists. split; [reflexivity|]. intros m Hm. unfold table_of. rewrite Eo, Hc. apply has_set. exact Hm. }
  assert (Hs : forall a u rs, ext h (mkHeap (h_class h) (set_nth k (mkInst a (i_own (inst_at h k)) u) (h_insts h)) rs)).
  { intros a u rs. constructor; cbn [h_insts h_class]; [apply set_nth_length| |eauto]. intros j Hj. apply own_set; [left; reflexivity|exact Hj]. }
  unfold CompactModel.set_record. destruct v as [|d|c|r].
  - destruct h as [cl is rs]. apply (Hp _ _ rs).
  - destruct h as [cl is rs]. apply (Hp _ _ rs).
  - destruct (assoc n (i_attrs (inst_at h k))) as [[|d|c'|r]|]; try apply Hp. apply Hs.
  - destruct h as [cl is rs]. apply (Hp _ _ rs).
Qed.
Lemma set_field_ext h k f v t : h_class h = Some t -> ext h (set_field h k f v).
Proof.
  intros Hc. unfold CompactModel.set_field. destruct (f_rec f); [eapply set_record_ext; exact Hc|]. unfold set_plain.
  constructor; cbn [h_insts h_class]; [apply set_nth_length| |eauto]. intros j Hj. apply own_set; [left; reflexivity|exact Hj].
Qed.
(** Setting a record field of an instance that has none yet puts it into the table of the class. *)
Lemma set_record_has h k n v t : h_class h = Some t -> i_own (inst_at h k) = None -> assoc n (i_attrs (inst_at h k)) = None ->
  exists t', h_class (set_record h k n v) = Some t' /\ has t' n.
Proof.
  intros Hc Ho Ha. unfold CompactModel.set_record. rewrite Ha.
  destruct v; unfold put_table; cbn [i_own h_class]; rewrite Ho, Hc; eexists; (split; [reflexivity|]); apply has_set_same.
Qed.
(** Only the attribute of that name changes. *)
Lemma set_field_attrs h k f v n : n <> f_name f -> assoc n (i_attrs (inst_at (set_field h k f v) k)) = assoc n (i_attrs (inst_at h k)).
Proof.
  intros Hn. assert (G : forall i cl rs, assoc n (i_attrs i) = assoc n (i_attrs (inst_at h k)) ->
      assoc n (i_attrs (inst_at (mkHeap cl (set_nth k i (h_insts h)) rs) k)) = assoc n (i_attrs (inst_at h k))).
  { intros i cl rs H. unfold inst_at in *. cbn [h_insts]. rewrite nth_set. destruct ((k =? k) && _); [exact H|reflexivity]. }
  assert (Hs : forall v, assoc n (assoc_set (f_name f) v (i_attrs (inst_at h k))) = assoc n (i_attrs (inst_at h k))) by (intros; apply assoc_set_other; congruence).
  unfold CompactModel.set_field. destruct (f_rec f); [|apply G; apply Hs].
  unfold CompactModel.set_record, put_table. destruct v as [|d|c|r].
  1,2,4: cbn [i_own h_class h_insts h_recs i_attrs i_unused]; destruct (i_own (inst_at h k)), (h_class h); apply G; apply Hs.
  destruct (assoc (f_name f) (i_attrs (inst_at h k))) as [[|d|c'|r]|]; try (apply G; reflexivity);
    cbn [i_own h_class h_insts h_recs i_attrs i_unused]; destruct (i_own (inst_at h k)), (h_class h); apply G; apply Hs.
Qed.
Lemma fields_set k vs fs : NoDup (map f_name fs) -> forall h t, h_class h = Some t -> i_own (inst_at h k) = None ->
  (forall f, In f fs -> assoc (f_name f) (i_attrs (inst_at h k)) = None) ->
  let h' := fold_left (fun h f => set_field h k f (vs (f_name f))) fs h in
  ext h h' /\ exists t', h_class h' = Some t' /\ forall f, In f fs -> f_rec f = true -> has t' (f_name f).
Proof.
  induction fs as [|f fs IH]; intros Hn h t Hc Ho Ha h'.
  - split; [apply ext_refl|]. exists t. split; [exact Hc|]. intros f [].
  - inversion Hn as [|? ? Hnf Hn']; subst. set (h1 := set_field h k f (vs (f_name f))).
    pose proof (set_field_ext h k f (vs (f_name f)) t Hc) as X1. fold h1 in X1. destruct (x_tab _ _ X1 t Hc) as (t1 & Hc1 & _).
    destruct (IH Hn' h1 t1 Hc1 (x_own _ _ X1 k Ho)) as (X2 & t2 & Hc2 & Hh).
    { intros g Hg. unfold h1. rewrite set_field_attrs; [apply Ha; right; exact Hg|]. intros E. apply Hnf. rewrite <- E. apply in_map. exact Hg. }
    split; [eapply ext_trans; eassumption|]. exists t2. split; [exact Hc2|]. intros g [<-|Hg] Hr; [|auto].
    destruct (x_tab _ _ X2 t1 Hc1) as (t2' & Hc2' & Hk). replace t2' with t2 in * by congruence. apply Hk.
    destruct (set_record_has h k (f_name f) (vs (f_name f)) t Hc Ho (Ha f (or_introl eq_refl))) as (t1' & Hc1' & Hh1).
    unfold h1, CompactModel.set_field in Hc1. rewrite Hr in Hc1. replace t1 with t1' by congruence. exact Hh1.
Qed.

(** Instances from the [n0]-th on have no table of their own, and the table of the class has all record fields. *)
Definition shared_from (n0 : nat) (h : heap) : Prop :=
  exists t, h_class h = Some t /\ (forall k, n0 <= k -> i_own (inst_at h k) = None) /\
            (n0 < List.length (h_insts h) -> forall f, In f fields -> f_rec f = true -> has t (f_name f)).
Lemma shared_ext n0 h h' : ext h h' -> shared_from n0 h -> shared_from n0 h'.
Proof.
  intros [X1 X2 X3] (t & Hc & Ho & Hh). destruct (X3 t Hc) as (t' & Hc' & Hk). exists t'. split; [exact Hc'|]. split; [auto|]. rewrite X1. auto.
Qed.
Lemma construct_shared n0 h vs : NoDup (map f_name fields) -> n0 <= List.length (h_insts h) -> shared_from n0 h ->
  shared_from n0 (construct fields clean removable h vs) /\ List.length (h_insts (construct fields clean removable h vs)) = S (List.length (h_insts h)).
Proof.
  intros Hn Hle (t & Hc & Ho & Hh). unfold construct. set (k := List.length (h_insts h)). set (h1 := mkHeap _ _ _).
  assert (Hk : inst_at h1 k = new_inst) by (unfold inst_at, h1, k; cbn; rewrite app_nth2, Nat.sub_diag by lia; reflexivity).
  assert (Ho1 : forall j, n0 <= j -> i_own (inst_at h1 j) = None).
  { intros j Hj. specialize (Ho j Hj). unfold inst_at, h1 in *. cbn [h_insts]. destruct (Nat.lt_ge_cases j (List.length (h_insts h))) as [Hl|Hl].
    - rewrite app_nth1 by exact Hl. exact Ho.
    - rewrite app_nth2 by exact Hl. destruct (j - List.length (h_insts h)) as [|[|m]]; reflexivity. }
  destruct (fields_set k vs fields Hn h1 t Hc) as (X & t' & Hc' & Hh'); [apply Ho1; exact Hle|intros f _; rewrite Hk; reflexivity|].
  split.
  - exists t'. split; [exact Hc'|]. split; [|auto]. intros j Hj. apply (x_own _ _ X). auto.
  - rewrite (x_len _ _ X). unfold h1. cbn. rewrite app_length. cbn. lia.
Qed.
Lemma load_shared n0 h s : NoDup (map f_name fields) -> n0 <= List.length (h_insts h) -> shared_from n0 h ->
  shared_from n0 (load fields clean removable misread h s) /\ List.length (h_insts (load fields clean removable misread h s)) = S (List.length (h_insts h)).
Proof.
  intros Hn Hle (t & Hc & Ho & Hh). unfold load. rewrite Hc. destruct (fold_left _ fields _) as [recs vs].
  pose proof (construct_shared n0 (mkHeap (Some t) (h_insts h) recs) (fun n => match assoc n vs with Some v => v | None => VNone end) Hn Hle) as H. cbn [h_insts] in H. apply H.
  exists t. split; [reflexivity|]. split; [exact Ho|exact Hh].
Qed.
Lemma acts_shared acts : NoDup (map f_name fields) -> forall n0 h, n0 <= List.length (h_insts h) -> shared_from n0 h ->
  shared_from n0 (acts_run fields clean removable misread h acts).
Proof.
  intros Hn. induction acts as [|a acts IH]; intros n0 h Hle H; [exact H|]. cbn [acts_run fold_left].
  assert (G : shared_from n0 (act_run fields clean removable misread h a) /\ List.length (h_insts h) <= List.length (h_insts (act_run fields clean removable misread h a))).
  { destruct a as [vs|k f v|s]; cbn [act_run].
    - destruct (construct_shared n0 h vs Hn Hle H) as [A B]. split; [exact A|lia].
    - destruct (k <? _); [|auto]. destruct H as (t & Hc & H). pose proof (set_field_ext h k f v t Hc) as X. split; [|rewrite (x_len _ _ X); lia].
      eapply shared_ext; [exact X|]. exists t. auto.
    - destruct (load_shared n0 h s Hn Hle H) as [A B]. split; [exact A|lia]. }
  destruct G as [G1 G2]. apply IH; [lia|exact G1].
Qed.
End Compact.

(** ** C44 *)
(** Once the class has a table of records — which its first load creates — any two instances made afterwards, in any
    program of constructions, assignments and loads, are saved with the same contents for all record fields. *)
Theorem C44_instances_share_records : forall fields clean removable misread h stored acts i j f,
  NoDup (map f_name fields) -> In f fields -> f_rec f = true ->
  let first := load fields clean removable misread h stored in
  let last := acts_run fields clean removable misread first acts in
  List.length (h_insts h) <= i < List.length (h_insts last) -> List.length (h_insts h) <= j < List.length (h_insts last) ->
  saved last i (f_name f) = saved last j (f_name f).
Proof.
  intros fields clean removable misread h stored acts i j f Hn Hf Hr first last Hi Hj.
  assert (H0 : exists t recs vs, first = construct fields clean removable (mkHeap (Some t) (h_insts h) recs) vs).
  { unfold first, load. destruct (fold_left _ fields _) as [recs vs]. eauto. }
  destruct H0 as (t & recs & vs & H0).
  destruct (construct_shared fields clean removable (List.length (h_insts h)) (mkHeap (Some t) (firstn (List.length (h_insts h)) (h_insts h)) recs) vs Hn) as [H1 H2].
  { cbn. rewrite firstn_all. lia. }
  { exists t. split; [reflexivity|]. split; [|cbn; rewrite firstn_all; lia]. intros k Hk. unfold inst_at. cbn. rewrite firstn_all, nth_overflow by exact Hk. reflexivity. }
  rewrite firstn_all in H1, H2. rewrite <- H0 in H1, H2. cbn [h_insts] in H2.
  destruct (acts_shared fields clean removable misread acts Hn _ first (Nat.le_trans _ _ _ (Nat.le_succ_diag_r _) (Nat.eq_le_incl _ _ (eq_sym H2))) H1) as (t' & Hc & Ho & Hh).
  fold last in Hc, Ho, Hh.
  assert (Hhas : has t' (f_name f)) by (apply Hh; [lia|exact Hf|exact Hr]). unfold has in Hhas.
  unfold saved, table_of. rewrite !Ho by lia. rewrite Hc. destruct (assoc (f_name f) t'); [reflexivity|congruence].
Qed.
Section More.
Variables (fields : list fld) (clean : bool) (removable : str -> bool) (misread : str -> str -> val).
Notation set_record := (set_record clean removable).
Notation set_field := (set_field clean removable).
(** Setting another field, for the first time, of an instance without own table. *)
Lemma set_field_other h k g v t n : h_class h = Some t -> i_own (inst_at h k) = None -> assoc (f_name g) (i_attrs (inst_at h k)) = None -> n <> f_name g ->
  (exists t', h_class (set_field h k g v) = Some t' /\ assoc n t' = assoc n t) /\
  (exists more, h_recs (set_field h k g v) = h_recs h ++ more) /\
  (forall r, In r (i_unused (inst_at h k)) -> In r (i_unused (inst_at (set_field h k g v) k))).
Proof.
  intros Hc Ho Ha Hn.
  assert (G : forall i cl rs, (forall r, In r (i_unused (inst_at h k)) -> In r (i_unused i)) ->
      forall r, In r (i_unused (inst_at h k)) -> In r (i_unused (inst_at (mkHeap cl (set_nth k i (h_insts h)) rs) k))).
  { intros i cl rs H r Hr. unfold inst_at in *. cbn [h_insts]. rewrite nth_set. destruct ((k =? k) && _); auto. }
  assert (T : table_of h (inst_at h k) = t) by (unfold table_of; rewrite Ho, Hc; reflexivity).
  unfold CompactModel.set_field. destruct (f_rec g).
  - unfold CompactModel.set_record. rewrite Ha, T. destruct v as [|d|c|r]; unfold put_table; cbn [i_own h_class h_insts h_recs i_attrs i_unused]; rewrite Ho, Hc; cbn [h_class h_recs].
    1,2,4: (split; [eexists; split; [reflexivity|apply assoc_set_other; congruence]|]; split; [exists []; rewrite app_nil_r; reflexivity|]; apply G; cbn [i_unused]; intros x Hx; apply in_or_app; left; exact Hx).
    split; [eexists; split; [reflexivity|apply assoc_set_other; congruence]|]. split; [eexists; reflexivity|]. apply G. cbn [i_unused]. auto.
  - unfold set_plain. cbn [h_class h_recs]. split; [eauto|]. split; [exists []; rewrite app_nil_r; reflexivity|]. apply G. cbn [i_unused]. auto.
Qed.
Lemma fields_other k vs n fs : NoDup (map f_name fs) -> ~ In n (map f_name fs) -> forall h t, h_class h = Some t -> i_own (inst_at h k) = None ->
  (forall f, In f fs -> assoc (f_name f) (i_attrs (inst_at h k)) = None) ->
  let h' := fold_left (fun h f => set_field h k f (vs (f_name f))) fs h in
  (exists t', h_class h' = Some t' /\ assoc n t' = assoc n t) /\ (exists more, h_recs h' = h_recs h ++ more) /\
  i_own (inst_at h' k) = None /\ assoc n (i_attrs (inst_at h' k)) = assoc n (i_attrs (inst_at h k)) /\ List.length (h_insts h') = List.length (h_insts h) /\
  (forall r, In r (i_unused (inst_at h k)) -> In r (i_unused (inst_at h' k))).
Proof.
  induction fs as [|f fs IH]; intros Hn Hf h t Hc Ho Ha h'.
  - split; [eauto|]. split; [exists []; rewrite app_nil_r; reflexivity|]. auto.
  - inversion Hn as [|? ? Hnf Hn']; subst. set (h1 := set_field h k f (vs (f_name f))).
    assert (Hne : n <> f_name f) by (intros E; apply Hf; left; congruence).
    destruct (set_field_other h k f (vs (f_name f)) t n Hc Ho (Ha f (or_introl eq_refl)) Hne) as ((t1 & Hc1 & Hk1) & (m1 & Hm1) & Hu1).
    pose proof (set_field_ext clean removable h k f (vs (f_name f)) t Hc) as X1. fold h1 in X1, Hc1, Hm1, Hu1.
    destruct (IH Hn' (fun H => Hf (or_intror H)) h1 t1 Hc1 (x_own _ _ X1 k Ho)) as ((t2 & Hc2 & Hk2) & (m2 & Hm2) & Ho2 & Ha2 & Hl2 & Hu2).
    { intros g Hg. unfold h1. rewrite set_field_attrs; [apply Ha; right; exact Hg|]. intros E. apply Hnf. rewrite <- E. apply in_map. exact Hg. }
    split; [exists t2; split; [exact Hc2|congruence]|]. split; [exists (m1 ++ m2); rewrite app_assoc, <- Hm1; exact Hm2|]. split; [exact Ho2|].
    split; [transitivity (assoc n (i_attrs (inst_at h1 k))); [exact Ha2|apply set_field_attrs; exact Hne]|]. split; [transitivity (List.length (h_insts h1)); [exact Hl2|exact (x_len _ _ X1)]|auto].
Qed.
(** The fields before [f], [f], and the rest. *)
Lemma construct_split h vs f t : NoDup (map f_name fields) -> In f fields -> h_class h = Some t ->
  let k := List.length (h_insts h) in
  exists h1 t1, h_class h1 = Some t1 /\ assoc (f_name f) t1 = assoc (f_name f) t /\ (exists m, h_recs h1 = h_recs h ++ m) /\ k < List.length (h_insts h1) /\
    i_own (inst_at h1 k) = None /\ assoc (f_name f) (i_attrs (inst_at h1 k)) = None /\
    let h2 := set_field h1 k f (vs (f_name f)) in let h3 := construct fields clean removable h vs in
    forall t2, h_class h2 = Some t2 ->
      (exists t3, h_class h3 = Some t3 /\ assoc (f_name f) t3 = assoc (f_name f) t2) /\ (exists m, h_recs h3 = h_recs h2 ++ m) /\
      assoc (f_name f) (i_attrs (inst_at h3 k)) = assoc (f_name f) (i_attrs (inst_at h2 k)) /\
      (forall r, In r (i_unused (inst_at h2 k)) -> In r (i_unused (inst_at h3 k))).
Proof.
  intros Hn Hf Hc k. unfold construct. fold k. set (h0 := mkHeap _ _ _). destruct (in_split _ _ Hf) as (a & b & Hab). rewrite Hab in Hn |- *.
  rewrite map_app in Hn. cbn [map] in Hn. pose proof (NoDup_remove_2 _ _ _ Hn) as Hnin. rewrite in_app_iff in Hnin.
  assert (Na : NoDup (map f_name a)) by (clear -Hn; induction (map f_name a) as [|y l IH]; [constructor|]; cbn in Hn; inversion Hn; subst; constructor; [rewrite in_app_iff in *; tauto|auto]).
  assert (Nb : NoDup (map f_name b)) by (clear -Hn; induction (map f_name a) as [|y l IH]; cbn in Hn; inversion Hn; auto).
  assert (Dab : forall g, In g b -> ~ In (f_name g) (map f_name a)).
  { intros g Hg Hin. apply (in_map f_name) in Hg. clear -Hn Hg Hin. induction (map f_name a) as [|y l IH]; cbn in *; [tauto|]. inversion Hn; subst. destruct Hin as [->|Hin]; [|auto]. apply H1. apply in_or_app. right. right. exact Hg. }
  assert (Hk : inst_at h0 k = new_inst) by (unfold inst_at, h0, k; cbn; rewrite app_nth2, Nat.sub_diag by lia; reflexivity).
  destruct (fields_other k vs (f_name f) a Na (fun H => Hnin (or_introl H)) h0 t Hc) as ((t1 & Hc1 & Hk1) & Hm1 & Ho1 & Ha1 & Hl1 & Hu1);
    [rewrite Hk; reflexivity|intros g _; rewrite Hk; reflexivity|].
  set (h1 := fold_left _ a h0) in *. exists h1, t1. split; [exact Hc1|]. split; [exact Hk1|]. split; [exact Hm1|]. split; [rewrite Hl1; unfold h0, k; cbn; rewrite app_length; cbn; lia|].
  split; [exact Ho1|]. split; [rewrite Ha1, Hk; reflexivity|]. cbv zeta. intros t2 Hc2. set (h2 := set_field h1 k f (vs (f_name f))) in *.
  assert (X : ext h1 h2) by (apply (set_field_ext clean removable h1 k f _ t1 Hc1)).
  destruct (fields_other k vs (f_name f) b Nb (fun H => Hnin (or_intror H)) h2 t2 Hc2 (x_own _ _ X k Ho1)) as ((t3 & Hc3 & Hk3) & Hm3 & Ho3 & Ha3 & Hl3 & Hu3).
  { intros g Hg. unfold h2. rewrite set_field_attrs.
    - destruct (fields_other k vs (f_name g) a Na (Dab g Hg) h0 t Hc) as (_ & _ & _ & Hg1 & _); [rewrite Hk; reflexivity|intros ? _; rewrite Hk; reflexivity|].
      fold h1 in Hg1. rewrite Hg1, Hk. reflexivity.
    - intros E. apply Hnin. right. rewrite <- E. apply in_map. exact Hg. }
  rewrite fold_left_app. cbn [fold_left]. fold h1. fold h2. split; [eauto|]. split; [exact Hm3|]. split; [exact Ha3|exact Hu3].
Qed.
End More.

(** The instance made last decides what every earlier one saves. *)
Theorem C44_last_instance_wins : forall fields clean removable h t vs1 vs2 f c,
  NoDup (map f_name fields) -> In f fields -> f_rec f = true -> h_class h = Some t -> vs2 (f_name f) = VSto c ->
  let one := construct fields clean removable h vs1 in
  let two := construct fields clean removable one vs2 in
  saved two (List.length (h_insts h)) (f_name f) = Some (SRec c).
Proof.
  intros fields clean removable h t vs1 vs2 f c Hn Hf Hr Hc Hv one two. set (n0 := List.length (h_insts h)).
  assert (S0 : shared_from fields n0 h).
  { exists t. split; [exact Hc|]. split; [|unfold n0; lia]. intros k Hk. unfold inst_at. rewrite nth_overflow by exact Hk. reflexivity. }
  destruct (construct_shared fields clean removable n0 h vs1 Hn (Nat.le_refl _) S0) as [S1 L1]. fold one in S1, L1.
  destruct (construct_shared fields clean removable n0 one vs2 Hn) as [S2 L2]; [rewrite L1; unfold n0; lia|exact S1|]. fold two in S2, L2.
  destruct S1 as (t1 & Hc1 & Ho1 & Hh1). destruct S2 as (t2 & Hc2 & Ho2 & Hh2).
  unfold saved, table_of. rewrite Ho2 by lia. rewrite Hc2.
  destruct (construct_split fields clean removable one vs2 f t1 Hn Hf Hc1) as (ha & ta & Hca & Hka & Hma & Hla & Hoa & Haa & Hrest).
  rewrite Hv in Hrest. cbn zeta in Hrest. fold two in Hrest.
  set (k := List.length (h_insts one)) in *. unfold CompactModel.set_field in Hrest. rewrite Hr in Hrest. unfold CompactModel.set_record in Hrest. rewrite Haa in Hrest.
  unfold put_table in Hrest. cbn [i_own h_class h_insts h_recs i_attrs i_unused] in Hrest. rewrite Hoa, Hca in Hrest. cbn [h_class h_recs] in Hrest.
  destruct (Hrest _ eq_refl) as ((t3 & Hc3 & Hk3) & (m & Hm) & _). replace t3 with t2 in * by congruence. rewrite Hk3, assoc_set_same. cbn [text_of]. rewrite Hm, <- app_assoc.
  rewrite app_nth2, Nat.sub_diag by lia. reflexivity.
Qed.

Lemma load_fold misread t stored fs : NoDup (map f_name fs) -> forall recs vs0, (forall f, In f fs -> assoc (f_name f) vs0 = None) ->
  let out := fold_left (load_step misread t stored) fs (recs, vs0) in
  (exists m, fst out = recs ++ m) /\ (forall n, ~ In n (map f_name fs) -> assoc n (snd out) = assoc n vs0) /\
  forall f, In f fs -> match stored (f_name f) with
    | None => assoc (f_name f) (snd out) = Some VNone
    | Some (SData d) => assoc (f_name f) (snd out) = Some (VData d)
    | Some (SRec c) => match assoc (f_name f) t with
                       | None => assoc (f_name f) (snd out) = Some (misread (f_name f) c)
                       | Some _ => exists r, assoc (f_name f) (snd out) = Some (VRec r)
                       end
    end.
Proof.
  induction fs as [|g fs IH]; intros Hn recs vs0 H0 out.
  - split; [exists []; rewrite app_nil_r; reflexivity|]. split; [auto|]. intros f [].
  - inversion Hn as [|? ? Hng Hn']; subst.
    assert (Ha : forall n (v : val), assoc n (vs0 ++ [(f_name g, v)]) = match assoc n vs0 with Some x => Some x | None => if str_eq_dec (f_name g) n then Some v else None end).
    { intros n v. clear. induction vs0 as [|[x y] l IH]; cbn; [reflexivity|]. destruct (str_eq_dec x n); [reflexivity|exact IH]. }
    assert (S : exists m v, load_step misread t stored (recs, vs0) g = (recs ++ m, vs0 ++ [(f_name g, v)]) /\
      match stored (f_name g) with None => v = VNone | Some (SData d) => v = VData d | Some (SRec c) => match assoc (f_name g) t with None => v = misread (f_name g) c | Some _ => exists r, v = VRec r end end).
    { unfold load_step. destruct (stored (f_name g)) as [[d|c]|].
      - exists [], (VData d). rewrite app_nil_r. auto.
      - destruct (assoc (f_name g) t); [exists [c], (VRec (List.length recs)); eauto|exists [], (misread (f_name g) c); rewrite app_nil_r; auto].
      - exists [], VNone. rewrite app_nil_r. auto. }
    destruct S as (m & v & Hs & Hv). unfold out. cbn [fold_left]. rewrite Hs.
    destruct (IH Hn' (recs ++ m) (vs0 ++ [(f_name g, v)])) as ((m2 & Hm) & Ho & Hf).
    { intros f Hin. rewrite Ha, (H0 f (or_intror Hin)). destruct (str_eq_dec (f_name g) (f_name f)) as [E|]; [|reflexivity]. exfalso. apply Hng. rewrite E. apply in_map. exact Hin. }
    split; [exists (m ++ m2); rewrite app_assoc; exact Hm|]. split.
    + intros n Hnn. rewrite Ho by (intros H; apply Hnn; right; exact H). rewrite Ha. destruct (assoc n vs0); [reflexivity|]. destruct (str_eq_dec (f_name g) n); [|reflexivity]. exfalso. apply Hnn. left. assumption.
    + intros f [<-|Hin]; [|exact (Hf f Hin)]. assert (E : assoc (f_name g) (snd (fold_left (load_step misread t stored) fs (recs ++ m, vs0 ++ [(f_name g, v)]))) = Some v).
      { rewrite Ho by exact Hng. rewrite Ha, (H0 g (or_introl eq_refl)). destruct (str_eq_dec (f_name g) (f_name g)); [reflexivity|congruence]. }
      rewrite E. destruct (stored (f_name g)) as [[d|c]|]; [congruence| |congruence]. destruct (assoc (f_name g) t); [|congruence]. destruct Hv as (r & Hv). exists r. congruence.
Qed.
(** With cleaning, saving a loaded instance first removes the record of the instance made before it. *)
Theorem C44_load_schedules_removal : forall fields removable misread h t stored f r c,
  NoDup (map f_name fields) -> In f fields -> f_rec f = true -> h_class h = Some t -> assoc (f_name f) t = Some (VRec r) -> stored (f_name f) = Some (SRec c) ->
  In (VRec r) (removed true (load fields true removable misread h stored) (List.length (h_insts h))).
Proof.
  intros fields removable misread h t stored f r c Hn Hf Hr Hc Ht Hs. unfold load. rewrite Hc.
  destruct (load_fold misread t stored fields Hn (h_recs h) [] (fun _ _ => eq_refl)) as (_ & _ & Hv). specialize (Hv f Hf). rewrite Hs, Ht in Hv.
  destruct (fold_left _ fields _) as [recs vs]. cbn [snd] in Hv. destruct Hv as (r' & Hv).
  set (h0 := mkHeap (Some t) (h_insts h) recs). set (val_of := fun n => match assoc n vs with Some v => v | None => VNone end).
  destruct (construct_split fields true removable h0 val_of f t Hn Hf eq_refl) as (h1 & t1 & Hc1 & Hk1 & _ & Hl1 & Ho1 & Ha1 & Hrest). cbn zeta in Hrest.
  change (List.length (h_insts h0)) with (List.length (h_insts h)) in *. set (k := List.length (h_insts h)) in *.
  assert (Ev : val_of (f_name f) = VRec r') by (unfold val_of; rewrite Hv; reflexivity). rewrite Ev in Hrest.
  unfold set_field in Hrest. rewrite Hr in Hrest. unfold set_record in Hrest. assert (T : table_of h1 (inst_at h1 k) = t1) by (unfold table_of; rewrite Ho1, Hc1; reflexivity). rewrite T, Hk1, Ht in Hrest.
  unfold put_table in Hrest. cbn [i_own h_class h_insts h_recs i_attrs i_unused] in Hrest. rewrite Ho1, Hc1 in Hrest. cbn [h_class h_recs] in Hrest.
  destruct (Hrest _ eq_refl) as (_ & _ & _ & Hu). unfold removed. apply Hu. unfold inst_at. cbn [h_insts]. rewrite nth_set, Nat.eqb_refl. destruct (Nat.ltb_spec k (List.length (h_insts h1))); [|lia].
  cbn. apply in_or_app. right. left. reflexivity.
Qed.
(** The first load of the class does not read record fields as records. *)
Theorem C44_first_load_misreads : forall fields clean removable misread h stored f c d,
  NoDup (map f_name fields) -> In f fields -> f_rec f = true -> h_class h = None -> stored (f_name f) = Some (SRec c) -> misread (f_name f) c = VData d ->
  let h' := load fields clean removable misread h stored in
  assoc (f_name f) (i_attrs (inst_at h' (List.length (h_insts h)))) = Some (VData d).
Proof.
  intros fields clean removable misread h stored f c d Hn Hf Hr Hc Hs Hm h'. unfold h', load. rewrite Hc.
  destruct (load_fold misread [] stored fields Hn (h_recs h) [] (fun _ _ => eq_refl)) as (_ & _ & Hv). specialize (Hv f Hf). rewrite Hs in Hv. cbn [assoc] in Hv.
  destruct (fold_left _ fields _) as [recs vs]. cbn [snd] in Hv.
  set (h0 := mkHeap (Some []) (h_insts h) recs). set (val_of := fun n => match assoc n vs with Some v => v | None => VNone end).
  destruct (construct_split fields clean removable h0 val_of f [] Hn Hf eq_refl) as (h1 & t1 & Hc1 & Hk1 & _ & Hl1 & Ho1 & Ha1 & Hrest). cbn zeta in Hrest.
  change (List.length (h_insts h0)) with (List.length (h_insts h)) in *. set (k := List.length (h_insts h)) in *.
  assert (Ev : val_of (f_name f) = VData d) by (unfold val_of; rewrite Hv; exact Hm). rewrite Ev in Hrest.
  unfold set_field in Hrest. rewrite Hr in Hrest. unfold set_record in Hrest.
  unfold put_table in Hrest. cbn [i_own h_class h_insts h_recs i_attrs i_unused] in Hrest. rewrite Ho1, Hc1 in Hrest. cbn [h_class h_recs] in Hrest.
  destruct (Hrest _ eq_refl) as (_ & _ & Ha & _). rewrite Ha. unfold inst_at. cbn [h_insts]. rewrite nth_set, Nat.eqb_refl. destruct (Nat.ltb_spec k (List.length (h_insts h1))); [|lia].
  cbn. apply assoc_set_same.
Qed.

(** ** Without a load *)
(** What a field is saved as, given what was assigned to it last. *)
Definition shows (f : fld) (v : val) : option ser :=
  match v with VNone => None | VData d => Some (SData d) | VSto c => Some (if f_rec f then SRec c else SData c) | VRec _ => None end.
(** What each field of each instance was given last, through a program. *)
Definition upd (last : nat -> str -> val) (k : nat) (n : str) (v : val) : nat -> str -> val :=
  fun k' n' => if (k' =? k) && (if str_eq_dec n' n then true else false) then v else last k' n'.
Fixpoint given (count : nat) (last : nat -> str -> val) (acts : list act) : nat * (nat -> str -> val) :=
  match acts with
  | [] => (count, last)
  | ANew vs :: r => given (S count) (fun k n => if k =? count then vs n else last k n) r
  | ASet k f v :: r => given count (upd last k (f_name f) v) r
  | ALoad _ :: r => given count last r
  end.
(** A program that makes instances and assigns values to their fields, without loading. *)
Definition no_record (v : val) : Prop := match v with VRec _ => False | _ => True end.
Inductive simple (fields : list fld) : nat -> list act -> Prop :=
| SimNil n : simple fields n []
| SimNew n vs r : (forall f, In f fields -> no_record (vs (f_name f))) -> simple fields (S n) r -> simple fields n (ANew vs :: r)
| SimSet n k f v r : k < n -> In f fields -> no_record v -> simple fields n r -> simple fields n (ASet k f v :: r).

Section Own.
Variables (fields : list fld) (clean : bool) (removable : str -> bool).
Hypothesis names : NoDup (map f_name fields).
Notation set_field := (set_field clean removable).
Definition at_ (h : heap) (k : nat) (n : str) : option val := assoc n (i_attrs (inst_at h k)).
Definition tab (h : heap) (k : nat) (n : str) : option val := assoc n (table_of h (inst_at h k)).
Lemma same_name f g : In f fields -> In g fields -> f_name f = f_name g -> f = g.
Proof.
  intros Hf Hg E. clear clean removable. induction fields as [|x l IH]; [destruct Hf|]. cbn in names. inversion names as [|? ? Hx Hl]; subst.
  destruct Hf as [->|Hf], Hg as [->|Hg]; [reflexivity| | |apply IH; assumption].
  - exfalso. apply Hx. rewrite E. apply in_map. exact Hg.
  - exfalso. apply Hx. rewrite <- E. apply in_map. exact Hf.
Qed.
Lemma inst_set h cl rs k i j : k < List.length (h_insts h) -> inst_at (mkHeap cl (set_nth k i (h_insts h)) rs) j = if j =? k then i else inst_at h j.
Proof.
  intros Hk. unfold inst_at. cbn [h_insts]. rewrite nth_set. destruct (Nat.eqb_spec j k) as [->|]; [|reflexivity]. destruct (Nat.ltb_spec k (List.length (h_insts h))); [reflexivity|lia].
Qed.
(** One assignment, seen from outside. *)
Lemma set_view h k f v : h_class h = None -> k < List.length (h_insts h) -> no_record v ->
  let h' := set_field h k f v in
  h_class h' = None /\ List.length (h_insts h') = List.length (h_insts h) /\
  exists x, (forall j n, at_ h' j n = if (j =? k) && (if str_eq_dec n (f_name f) then true else false) then x else at_ h j n) /\
    (forall j n, f_rec f = false \/ (j =? k) && (if str_eq_dec n (f_name f) then true else false) = false -> tab h' j n = tab h j n) /\
    ((exists r c, v = VSto c /\ f_rec f = true /\ at_ h k (f_name f) = Some (VRec r) /\ x = Some (VRec r) /\ h_recs h' = set_nth r c (h_recs h) /\ tab h' k (f_name f) = tab h k (f_name f)) \/
     (exists c, v = VSto c /\ f_rec f = true /\ x = Some (VRec (List.length (h_recs h))) /\ h_recs h' = h_recs h ++ [c] /\ tab h' k (f_name f) = x) \/
     (x = Some v /\ h_recs h' = h_recs h /\ (f_rec f = true -> (forall c, v <> VSto c) /\ tab h' k (f_name f) = x))).
Proof.
  intros Hc Hk Hv h'.
  assert (Hat : forall i cl rs x, (forall n, assoc n (i_attrs i) = if str_eq_dec n (f_name f) then x else at_ h k n) ->
     forall j n, at_ (mkHeap cl (set_nth k i (h_insts h)) rs) j n = if (j =? k) && (if str_eq_dec n (f_name f) then true else false) then x else at_ h j n).
  { intros i cl rs x Hi j n. unfold at_. rewrite inst_set by exact Hk. destruct (Nat.eqb_spec j k) as [->|]; [|reflexivity]. cbn [andb]. rewrite Hi. destruct (str_eq_dec n (f_name f)); reflexivity. }
  assert (Htab : forall i rs, (forall n, n <> f_name f -> assoc n (table_of h i) = tab h k n) ->
     forall j n, (j =? k) && (if str_eq_dec n (f_name f) then true else false) = false -> tab (mkHeap None (set_nth k i (h_insts h)) rs) j n = tab h j n).
  { intros i rs Hi j n Hjn. unfold tab. rewrite inst_set by exact Hk. unfold table_of at 1. cbn [h_class]. destruct (Nat.eqb_spec j k) as [->|].
    - cbn [andb] in Hjn. destruct (str_eq_dec n (f_name f)); [discriminate|]. transitivity (assoc n (table_of h i)); [unfold table_of; rewrite Hc; reflexivity|apply Hi; assumption].
    - unfold table_of. rewrite Hc. reflexivity. }
  assert (Hset : forall (l : list (str * val)) (x : val) n, assoc n (assoc_set (f_name f) x l) = if str_eq_dec n (f_name f) then Some x else assoc n l).
  { intros l x n. destruct (str_eq_dec n (f_name f)) as [->|Hn]; [apply assoc_set_same|apply assoc_set_other; congruence]. }
  assert (Hput : forall a u rs x v', (forall n, assoc n a = if str_eq_dec n (f_name f) then Some x else at_ h k n) ->
     let h2 := put_table (mkHeap (h_class h) (h_insts h) rs) k (mkInst a (i_own (inst_at h k)) u) (assoc_set (f_name f) v' (table_of h (inst_at h k))) in
     h_class h2 = None /\ List.length (h_insts h2) = List.length (h_insts h) /\ h_recs h2 = rs /\
     (forall j n, at_ h2 j n = if (j =? k) && (if str_eq_dec n (f_name f) then true else false) then Some x else at_ h j n) /\
     (forall j n, (j =? k) && (if str_eq_dec n (f_name f) then true else false) = false -> tab h2 j n = tab h j n) /\ tab h2 k (f_name f) = Some v').
  { intros a u rs x v' Ha h2. unfold h2, put_table. cbn [i_own h_class h_insts h_recs i_attrs i_unused]. rewrite Hc.
    replace (match i_own (inst_at h k) with Some _ | None => mkHeap None (set_nth k (mkInst a (Some (assoc_set (f_name f) v' (table_of h (inst_at h k)))) u) (h_insts h)) rs end)
      with (mkHeap None (set_nth k (mkInst a (Some (assoc_set (f_name f) v' (table_of h (inst_at h k)))) u) (h_insts h)) rs) by (destruct (i_own (inst_at h k)); reflexivity).
    split; [reflexivity|]. split; [apply set_nth_length|]. split; [reflexivity|]. split; [apply Hat; exact Ha|]. split.
    - apply Htab. intros n Hn. unfold table_of at 1. cbn [i_own]. rewrite Hset. destruct (str_eq_dec n (f_name f)); [contradiction|reflexivity].
    - unfold tab. rewrite inst_set by exact Hk. rewrite Nat.eqb_refl. unfold table_of at 1. cbn [i_own]. apply assoc_set_same. }
  unfold h', CompactModel.set_field. destruct (f_rec f) eqn:Er.
  - destruct v as [|d|c|r]; [| | |destruct Hv].
    + unfold set_record. destruct (Hput (assoc_set (f_name f) VNone (i_attrs (inst_at h k))) (i_unused (inst_at h k) ++ match assoc (f_name f) (table_of h (inst_at h k)) with Some VNone | None => [] | Some x => if clean then [x] else [] end) (h_recs h) VNone VNone (fun n => Hset _ _ n)) as (P1 & P2 & P3 & P4 & P5 & P6).
      assert (Hh : h = mkHeap (h_class h) (h_insts h) (h_recs h)) by (destruct h; reflexivity). rewrite <- Hh in *.
      split; [exact P1|]. split; [exact P2|]. exists (Some VNone). split; [exact P4|]. split; [intros j n [H|H]; [discriminate|auto]|]. right. right. split; [reflexivity|]. split; [exact P3|]. intros _. split; [discriminate|exact P6].
    + unfold set_record. destruct (Hput (assoc_set (f_name f) (VData d) (i_attrs (inst_at h k))) (i_unused (inst_at h k) ++ match assoc (f_name f) (table_of h (inst_at h k)) with Some VNone | None => [] | Some x => if clean then [x] else [] end) (h_recs h) (VData d) (VData d) (fun n => Hset _ _ n)) as (P1 & P2 & P3 & P4 & P5 & P6).
      assert (Hh : h = mkHeap (h_class h) (h_insts h) (h_recs h)) by (destruct h; reflexivity). rewrite <- Hh in *.
      split; [exact P1|]. split; [exact P2|]. exists (Some (VData d)). split; [exact P4|]. split; [intros j n [H|H]; [discriminate|auto]|]. right. right. split; [reflexivity|]. split; [exact P3|]. intros _. split; [discriminate|exact P6].
    + unfold set_record. destruct (Hput (assoc_set (f_name f) (VRec (List.length (h_recs h))) (i_attrs (inst_at h k))) (i_unused (inst_at h k)) (h_recs h ++ [c]) (VRec (List.length (h_recs h))) (VRec (List.length (h_recs h))) (fun n => Hset _ _ n)) as (P1 & P2 & P3 & P4 & P5 & P6).
      assert (Hnew : forall h2, h2 = put_table (mkHeap (h_class h) (h_insts h) (h_recs h ++ [c])) k (mkInst (assoc_set (f_name f) (VRec (List.length (h_recs h))) (i_attrs (inst_at h k))) (i_own (inst_at h k)) (i_unused (inst_at h k))) (assoc_set (f_name f) (VRec (List.length (h_recs h))) (table_of h (inst_at h k))) ->
        h_class h2 = None /\ List.length (h_insts h2) = List.length (h_insts h) /\
        exists x, (forall j n, at_ h2 j n = if (j =? k) && (if str_eq_dec n (f_name f) then true else false) then x else at_ h j n) /\
          (forall j n, true = false \/ (j =? k) && (if str_eq_dec n (f_name f) then true else false) = false -> tab h2 j n = tab h j n) /\
          ((exists r c0, VSto c = VSto c0 /\ true = true /\ at_ h k (f_name f) = Some (VRec r) /\ x = Some (VRec r) /\ h_recs h2 = set_nth r c0 (h_recs h) /\ tab h2 k (f_name f) = tab h k (f_name f)) \/
           (exists c0, VSto c = VSto c0 /\ true = true /\ x = Some (VRec (List.length (h_recs h))) /\ h_recs h2 = h_recs h ++ [c0] /\ tab h2 k (f_name f) = x) \/
           (x = Some (VSto c) /\ h_recs h2 = h_recs h /\ (true = true -> (forall c0, VSto c <> VSto c0) /\ tab h2 k (f_name f) = x)))).
      { intros h2 ->. split; [exact P1|]. split; [exact P2|]. exists (Some (VRec (List.length (h_recs h)))). split; [exact P4|]. split; [intros j n [H|H]; [discriminate|auto]|].
        right. left. exists c. auto. }
      destruct (assoc (f_name f) (i_attrs (inst_at h k))) as [[|d|c'|r]|] eqn:Ea; try (apply Hnew; reflexivity).
      cbn [h_class h_insts h_recs]. split; [exact Hc|]. split; [apply set_nth_length|]. exists (Some (VRec r)).
      assert (Hi : forall u n, assoc n (i_attrs (mkInst (i_attrs (inst_at h k)) (i_own (inst_at h k)) u)) = if str_eq_dec n (f_name f) then Some (VRec r) else at_ h k n).
      { intros u n. cbn [i_attrs]. destruct (str_eq_dec n (f_name f)) as [->|]; [exact Ea|reflexivity]. }
      split; [apply Hat; apply Hi|]. rewrite Hc.
      assert (Ht : forall u j n, tab (mkHeap None (set_nth k (mkInst (i_attrs (inst_at h k)) (i_own (inst_at h k)) u) (h_insts h)) (set_nth r c (h_recs h))) j n = tab h j n).
      { intros u j n. unfold tab. rewrite inst_set by exact Hk. unfold table_of. rewrite Hc. destruct (Nat.eqb_spec j k) as [->|]; reflexivity. }
      split; [intros j n _; apply Ht|]. left. exists r, c. auto 10.
  - unfold set_plain. cbn [h_class h_insts h_recs]. split; [exact Hc|]. split; [apply set_nth_length|]. exists (Some v). split; [apply Hat; intros n; apply Hset|]. split.
    + intros j n _. unfold tab. rewrite inst_set by exact Hk. unfold table_of. rewrite Hc. destruct (Nat.eqb_spec j k) as [->|]; reflexivity.
    + right. right. split; [reflexivity|]. split; [reflexivity|discriminate].
Qed.
(** Instances own their records: what is stored is what was assigned last. *)
Definition holds (h : heap) (f : fld) (v : val) (x : option val) : Prop :=
  match v with
  | VSto c => if f_rec f then exists r, x = Some (VRec r) /\ nth_error (h_recs h) r = Some c else x = Some v
  | _ => x = Some v
  end.
Record own (h : heap) (last : nat -> str -> val) (done : nat -> fld -> Prop) : Prop := mkOwn {
  o_class : h_class h = None;
  o_tab : forall k f, In f fields -> tab h k (f_name f) = if f_rec f then at_ h k (f_name f) else None;
  o_val : forall k f, In f fields -> done k f -> no_record (last k (f_name f)) /\ holds h f (last k (f_name f)) (at_ h k (f_name f));
  o_new : forall k f, In f fields -> at_ h k (f_name f) <> None -> done k f;
  o_inj : forall k f k' f' r, In f fields -> In f' fields -> at_ h k (f_name f) = Some (VRec r) -> at_ h k' (f_name f') = Some (VRec r) -> k = k' /\ f = f' }.
Lemma nth_error_set {A} r (x : A) l q : nth_error (set_nth r x l) q = if q =? r then (if r <? List.length l then Some x else None) else nth_error l q.
Proof.
  revert r q. induction l as [|y l IH]; intros r q; cbn [set_nth].
  - destruct (Nat.eqb_spec q r) as [->|]; destruct r; reflexivity || (destruct q; reflexivity).
  - destruct r as [|r], q as [|q]; cbn [set_nth nth_error Nat.eqb]; try reflexivity. rewrite IH. reflexivity.
Qed.
Lemma own_set_field h last done k f v : own h last done -> In f fields -> k < List.length (h_insts h) -> no_record v ->
  own (set_field h k f v) (upd last k (f_name f) v) (fun j g => done j g \/ (j = k /\ g = f)) /\
  List.length (h_insts (set_field h k f v)) = List.length (h_insts h).
Proof.
  intros [Oc Ot Ov On Oi] Hf Hk Hv. destruct (set_view h k f v Oc Hk Hv) as (Hc' & Hl' & x & Hat & Htab & Hx). set (h' := set_field h k f v) in *. split; [|exact Hl'].
  assert (Hb : forall j g, In g fields -> (j =? k) && (if str_eq_dec (f_name g) (f_name f) then true else false) = true <-> j = k /\ g = f).
  { intros j g Hg. split.
    - intros H. apply andb_prop in H as [H1 H2]. apply Nat.eqb_eq in H1. destruct (str_eq_dec (f_name g) (f_name f)) as [E|]; [|discriminate]. split; [exact H1|exact (same_name g f Hg Hf E)].
    - intros [-> ->]. rewrite Nat.eqb_refl. destruct (str_eq_dec (f_name f) (f_name f)); [reflexivity|congruence]. }
  assert (Hcase : forall j g, In g fields -> (j = k /\ g = f /\ at_ h' j (f_name g) = x /\ upd last k (f_name f) v j (f_name g) = v) \/
     (~ (j = k /\ g = f) /\ at_ h' j (f_name g) = at_ h j (f_name g) /\ tab h' j (f_name g) = tab h j (f_name g) /\ upd last k (f_name f) v j (f_name g) = last j (f_name g))).
  { intros j g Hg. rewrite Hat. unfold upd. specialize (Hb j g Hg). specialize (Htab j (f_name g)). destruct ((j =? k) && _) eqn:Eb.
    - left. destruct (proj1 Hb eq_refl) as [-> ->]. auto.
    - right. split; [intros H; apply Hb in H; discriminate|]. auto. }
  assert (Hrec : forall j g c r, In g fields -> ~ (j = k /\ g = f) -> at_ h j (f_name g) = Some (VRec r) -> nth_error (h_recs h) r = Some c -> nth_error (h_recs h') r = Some c).
  { intros j g c r Hg Hn Ha Hnth. destruct Hx as [(r0 & c0 & -> & _ & Ha0 & _ & -> & _)|[(c0 & -> & _ & _ & -> & _)|(_ & -> & _)]].
    - rewrite nth_error_set. destruct (Nat.eqb_spec r r0) as [->|]; [|exact Hnth]. exfalso. apply Hn. exact (Oi _ _ _ _ _ Hg Hf Ha Ha0).
    - rewrite nth_error_app1; [exact Hnth|]. apply nth_error_Some. congruence.
    - exact Hnth. }
  assert (Hlt : forall j g r, In g fields -> at_ h j (f_name g) = Some (VRec r) -> exists c, nth_error (h_recs h) r = Some c).
  { intros j g r Hg Ha. destruct (Ov j g Hg) as [Hn Hh]; [apply On; [exact Hg|congruence]|]. unfold holds in Hh. rewrite Ha in Hh. destruct (last j (f_name g)) as [|d|c|q]; try congruence; [|destruct Hn].
    destruct (f_rec g); [|congruence]. destruct Hh as (r' & E & Hh). injection E as <-. eauto. }
  constructor.
  - exact Hc'.
  - intros j g Hg. destruct (Hcase j g Hg) as [(-> & -> & E1 & _)|(_ & E1 & E2 & _)]; [|rewrite E1, E2; apply Ot; exact Hg]. rewrite E1.
    destruct (f_rec f) eqn:Er.
    + destruct Hx as [(r0 & c0 & -> & _ & Ha0 & -> & _ & ->)|[(c0 & -> & _ & _ & _ & ->)|(_ & _ & H)]]; [|reflexivity|exact (proj2 (H eq_refl))]. rewrite (Ot k f Hf), Er. exact Ha0.
    + rewrite Htab by auto. rewrite (Ot k f Hf), Er. reflexivity.
  - intros j g Hg Hd. destruct (Hcase j g Hg) as [(-> & -> & E1 & E2)|(Hn & E1 & _ & E2)]; rewrite E1, E2.
    + split; [exact Hv|]. unfold holds. destruct Hx as [(r0 & c0 & -> & -> & Ha0 & -> & -> & _)|[(c0 & -> & -> & -> & -> & _)|(-> & _ & H)]].
      * exists r0. split; [reflexivity|]. rewrite nth_error_set, Nat.eqb_refl. destruct (Hlt k f r0 Hf Ha0) as (c & Hc). destruct (Nat.ltb_spec r0 (List.length (h_recs h))); [reflexivity|]. apply nth_error_None in H. congruence.
      * eexists. split; [reflexivity|]. rewrite nth_error_app2, Nat.sub_diag by lia. reflexivity.
      * destruct v as [|d|c|r]; try reflexivity. destruct (f_rec f); [|reflexivity]. exfalso. exact (proj1 (H eq_refl) c eq_refl).
    + destruct Hd as [Hd|Hd]; [|contradiction]. destruct (Ov j g Hg Hd) as [H1 H2]. split; [exact H1|]. unfold holds in *. destruct (last j (f_name g)) as [|d|c|r]; try exact H2.
      destruct (f_rec g); [|exact H2]. destruct H2 as (r & Ha & Hnth). exists r. split; [exact Ha|]. exact (Hrec j g c r Hg Hn Ha Hnth).
  - intros j g Hg Hne. destruct (Hcase j g Hg) as [(-> & -> & _)|(Hn & E1 & _)]; [right; auto|]. left. apply On; [exact Hg|]. rewrite <- E1. exact Hne.
  - intros j g j' g' r Hg Hg' Ha Ha'.
    assert (Hxr : forall i e, In e fields -> ~ (i = k /\ e = f) -> x = Some (VRec r) -> at_ h i (f_name e) = Some (VRec r) -> False).
    { intros i e He Hn Ex Hi. destruct Hx as [(r0 & c0 & _ & _ & Ha0 & Ex0 & _)|[(c0 & _ & _ & Ex0 & _)|(Ex0 & _)]].
      - assert (r0 = r) by congruence. subst r0. apply Hn. exact (Oi _ _ _ _ _ He Hf Hi Ha0).
      - assert (r = List.length (h_recs h)) by congruence. subst r. destruct (Hlt i e _ He Hi) as (c & Hc). apply nth_error_None in Hc; [|lia] || (assert (nth_error (h_recs h) (List.length (h_recs h)) = None) by (apply nth_error_None; lia); congruence).
      - rewrite Ex0 in Ex. injection Ex as ->. destruct Hv. }
    destruct (Hcase j g Hg) as [(-> & -> & E1 & _)|(Hn & E1 & _)], (Hcase j' g' Hg') as [(-> & -> & E2 & _)|(Hn' & E2 & _)]; rewrite E1 in Ha; rewrite E2 in Ha'.
    + auto.
    + exfalso. exact (Hxr j' g' Hg' Hn' Ha Ha').
    + exfalso. exact (Hxr j g Hg Hn Ha' Ha).
    + exact (Oi _ _ _ _ _ Hg Hg' Ha Ha').
Qed.
Lemma own_ext h last last' (done done' : nat -> fld -> Prop) : own h last done ->
  (forall k f, In f fields -> done' k f -> done k f /\ last' k (f_name f) = last k (f_name f)) -> (forall k f, In f fields -> done k f -> done' k f) -> own h last' done'.
Proof.
  intros [Oc Ot Ov On Oi] H1 H2. constructor; auto. intros k f Hf Hd. destruct (H1 k f Hf Hd) as [Hd' ->]. auto.
Qed.
Lemma fields_own k vs fs : incl fs fields -> (forall f, In f fs -> no_record (vs (f_name f))) -> forall h last done,
  own h last done -> k < List.length (h_insts h) -> (forall f, In f fs -> last k (f_name f) = vs (f_name f)) ->
  let h' := fold_left (fun h f => set_field h k f (vs (f_name f))) fs h in
  own h' last (fun j g => done j g \/ (j = k /\ In g fs)) /\ List.length (h_insts h') = List.length (h_insts h).
Proof.
  induction fs as [|f fs IH]; intros Hi Hv h last done O Hk Hl h'.
  - split; [|reflexivity]. eapply own_ext; [exact O| |]; cbn; intuition.
  - destruct (own_set_field h last done k f (vs (f_name f)) O (Hi f (or_introl eq_refl)) Hk (Hv f (or_introl eq_refl))) as [O1 L1].
    unfold h'. cbn [fold_left]. destruct (IH (fun g Hg => Hi g (or_intror Hg)) (fun g Hg => Hv g (or_intror Hg)) (set_field h k f (vs (f_name f))) last (fun j g => done j g \/ (j = k /\ g = f))) as [O2 L2].
    + eapply own_ext; [exact O1| |auto]. intros j g Hg Hd. split; [exact Hd|]. unfold upd. destruct (Nat.eqb_spec j k) as [->|]; [|reflexivity]. cbn [andb].
      destruct (str_eq_dec (f_name g) (f_name f)) as [->|]; [|reflexivity]. apply Hl. left. reflexivity.
    + rewrite L1. exact Hk.
    + intros g Hg. apply Hl. right. exact Hg.
    + split; [|congruence]. eapply own_ext; [exact O2| |].
      * intros j g _ [Hd|(-> & [<-|Hg])]; auto.
      * intros j g _ [[Hd|(-> & ->)]|(-> & Hg)]; cbn; auto.
Qed.
Lemma construct_own h last done vs : own h last done -> (forall f, In f fields -> no_record (vs (f_name f))) ->
  (forall k f, In f fields -> done k f -> k < List.length (h_insts h)) ->
  let n := List.length (h_insts h) in let h' := construct fields clean removable h vs in
  own h' (fun k m => if k =? n then vs m else last k m) (fun k f => done k f \/ (k = n /\ In f fields)) /\ List.length (h_insts h') = S n.
Proof.
  intros O Hv Hd n h'. destruct O as [Oc Ot Ov On Oi].
  assert (Hi : forall k, inst_at (mkHeap (h_class h) (h_insts h ++ [new_inst]) (h_recs h)) k = inst_at h k).
  { intros k. unfold inst_at. cbn. destruct (Nat.lt_ge_cases k n) as [H|H]; [apply app_nth1; exact H|]. rewrite app_nth2, (nth_overflow (h_insts h)) by exact H. fold n. destruct (k - n) as [|[|m]]; reflexivity. }
  destruct (fields_own n vs fields (fun f Hf => Hf) Hv (mkHeap (h_class h) (h_insts h ++ [new_inst]) (h_recs h)) (fun k m => if k =? n then vs m else last k m) done) as [O1 L1].
  - constructor; unfold tab, at_; cbn [h_class].
    + exact Oc.
    + intros k f Hf. rewrite Hi. exact (Ot k f Hf).
    + intros k f Hf Hdn. rewrite Hi. destruct (Nat.eqb_spec k n) as [->|]; [pose proof (Hd n f Hf Hdn); lia|]. exact (Ov k f Hf Hdn).
    + intros k f Hf. rewrite Hi. exact (On k f Hf).
    + intros k f k' f' r Hf Hf'. rewrite !Hi. apply Oi; assumption.
  - cbn. rewrite app_length. cbn. fold n. lia.
  - intros f _. rewrite Nat.eqb_refl. reflexivity.
  - split; [exact O1|]. transitivity (List.length (h_insts h ++ [new_inst])); [exact L1|]. rewrite app_length. cbn. fold n. lia.
Qed.
Lemma acts_own misread acts : forall n, simple fields n acts -> forall h last, List.length (h_insts h) = n -> own h last (fun k _ => k < n) ->
  let h' := acts_run fields clean removable misread h acts in
  List.length (h_insts h') = fst (given n last acts) /\ own h' (snd (given n last acts)) (fun k _ => k < List.length (h_insts h')).
Proof.
  induction 1 as [n|n vs r Hv _ IH|n k f v r Hk Hf Hv _ IH]; intros h last Hl O h'.
  - unfold h'. cbn. rewrite Hl. auto.
  - unfold h'. cbn [acts_run fold_left act_run given fst snd]. destruct (construct_own h last _ vs O Hv) as [O1 L1]; [rewrite Hl; auto|]. rewrite Hl in O1, L1.
    apply IH; [exact L1|]. eapply own_ext; [exact O1| |].
    + intros j g Hg Hj. split; [|reflexivity]. destruct (Nat.eq_dec j n) as [->|]; [auto|left; lia].
    + intros j g _ [Hj|(-> & _)]; lia.
  - unfold h'. cbn [acts_run fold_left act_run given fst snd]. rewrite Hl. destruct (Nat.ltb_spec k n); [|lia]. rewrite <- Hl in Hk.
    destruct (own_set_field h last _ k f v O Hf Hk Hv) as [O1 L1]. apply IH; [congruence|]. eapply own_ext; [exact O1| |].
    + intros j g _ Hj. auto.
    + intros j g _ [Hj|(-> & _)]; lia.
Qed.
End Own.

(** As long as nothing was loaded, every instance is saved with what was assigned to its own fields last. *)
Theorem C44_own_values_without_load : forall fields clean removable misread acts k f,
  NoDup (map f_name fields) -> simple fields 0 acts -> In f fields ->
  let h := acts_run fields clean removable misread (mkHeap None [] []) acts in
  k < List.length (h_insts h) -> saved h k (f_name f) = shows f (snd (given 0 (fun _ _ => VNone) acts) k (f_name f)).
Proof.
  intros fields clean removable misread acts k f Hn Hs Hf h Hk.
  assert (O0 : own fields (mkHeap None [] []) (fun _ _ => VNone) (fun k _ => k < 0)).
  { assert (E : forall j, inst_at (mkHeap None [] []) j = new_inst) by (intros [|j]; reflexivity).
    constructor; unfold tab, at_, table_of.
    - reflexivity.
    - intros j g _. rewrite E. destruct (f_rec g); reflexivity.
    - intros j g _ H. lia.
    - intros j g _. rewrite E. intros H. exfalso. apply H. reflexivity.
    - intros j g j' g' r _ _. rewrite E. discriminate. }
  destruct (acts_own fields clean removable Hn misread acts 0 Hs (mkHeap None [] []) _ eq_refl O0) as [_ O]. fold h in O.
  destruct (o_val _ _ _ _ O k f Hf Hk) as [Hr Hh]. pose proof (o_tab _ _ _ _ O k f Hf) as Ht. unfold tab, at_ in *. unfold saved. rewrite Ht.
  set (v := snd (given 0 (fun _ _ => VNone) acts) k (f_name f)) in *. unfold holds in Hh. unfold shows.
  destruct v as [|d|c|r]; [| | |destruct Hr].
  - rewrite Hh. destruct (f_rec f); reflexivity.
  - rewrite Hh. destruct (f_rec f); reflexivity.
  - destruct (f_rec f).
    + destruct Hh as (r & -> & Hnth). cbn. rewrite (nth_error_nth _ _ _ Hnth). reflexivity.
    + rewrite Hh. reflexivity.
Qed.

(** ** Examples *)
Section Ex.
Let fields := [mkFld $"label" false; mkFld $"data" true].
Let mis (n c : str) : val := VData $"?".
Let give (l d : str) : str -> val := fun n => if str_eq_dec n $"label" then VData l else VSto d.
Let stored : str -> option ser := fun n => if str_eq_dec n $"label" then Some (SData $"first") else Some (SRec $"numbers").
Let yes (_ : str) := true.
Example ex_names : NoDup (map f_name fields).
Proof. apply (NoDup_count_occ' str_eq_dec). intros x [<-|[<-|[]]]; vm_compute; reflexivity. Qed.
(** No load: two instances and an assignment to the first. *)
Let plain := [ANew (give $"a" $"one"); ANew (give $"b" $"two"); ASet 0 (mkFld $"data" true) (VSto $"three")].
Example ex_simple : simple fields 0 plain.
Proof.
  apply SimNew; [intros f [<-|[<-|[]]]; exact I|]. apply SimNew; [intros f [<-|[<-|[]]]; exact I|].
  apply SimSet; [lia|right; left; reflexivity|exact I|apply SimNil].
Qed.
Example ex_own : let h := acts_run fields true yes mis (mkHeap None [] []) plain in
  List.length (h_insts h) = 2 /\ saved h 0 $"data" = Some (SRec $"three") /\ saved h 1 $"data" = Some (SRec $"two") /\ saved h 0 $"label" = Some (SData $"a").
Proof. vm_compute. auto. Qed.
(** After a load, two further instances. *)
Let loaded := load fields true yes mis (mkHeap None [] []) stored.
Let later := [ANew (give $"b" $"two"); ANew (give $"c" $"three")].
Example ex_shared : let h := acts_run fields true yes mis loaded later in
  List.length (h_insts h) = 3 /\ saved h 0 $"data" = Some (SRec $"three") /\ saved h 1 $"data" = Some (SRec $"three") /\
  saved h 2 $"data" = Some (SRec $"three") /\ saved h 1 $"label" = Some (SData $"b").
Proof. vm_compute. auto 10. Qed.
Example ex_has_table : exists t, h_class loaded = Some t.
Proof. vm_compute. eauto. Qed.
(** A second load: the record of the instance before is scheduled for removal. *)
Example ex_load_again : let h := acts_run fields true yes mis loaded later in
  (exists r, h_class h = Some [($"data", VRec r)]) /\ removed true (load fields true yes mis h stored) 3 = [VRec 1].
Proof. vm_compute. eauto. Qed.
Example ex_misread : assoc $"data" (i_attrs (inst_at loaded 0)) = Some (VData $"?").
Proof. vm_compute. reflexivity. Qed.
End Ex.

Print Assumptions C44_instances_share_records.
Print Assumptions C44_last_instance_wins.
Print Assumptions C44_load_schedules_removal.
Print Assumptions C44_first_load_misreads.
Print Assumptions C44_own_values_without_load.
