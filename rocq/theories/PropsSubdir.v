(** The sub directory given to an mdict has no effect: C74. *)
From Coq Require Import List Ascii String Bool Arith ZArith Lia.
From Verif Require Import Base PosixModel FsModel PathModel SerialModel StoreModel TrackModel ContainerModel FieldModel PropsContainer PropsField StoreFrame StoreMount StoreSpec StoreLocal StorePlace
     StoreRecord StoreSave StoreEvents StoreExample SerialSpec SerialProof RoundSpec KeepSpec RoundProof ReplayProof CleanProof DropProof DropSettled KeepProof ContextProof KeepSave PathSpec MountSpec DirSpec
     PosixProof FsProof DirProof TargetProof MountProof HistoryProof PathFacts PropsStore PropsRepo PropsRound PropsKeep PropsDelete PropsReplace PropsDropped PropsExact PropsRelocate.
Import ListNotations.

Local Arguments str_eq_dec : simpl never.
Local Arguments atom_eq_dec : simpl never.

(** ** Specification *)
(** The same dict made with another [subdir]. *)
Definition made_with (sub : str) (p : mapcfg) : mapcfg := mkMap (p_sto p) sub (p_pre p) (p_bykey p) (p_insub p).
(** Records are in the sub directory [d]. *)
Definition in_sub (d : str) (o : obj) : Prop := forall c t pre we re, o = ORec c t pre we re -> t_subdir t = Some d.

(** ** Proofs *)
Section Same.
Variables (E : senv) (n : nat) (sub : str).
Definition same {A} (r : res (A * mapst) * world) : res (A * mapst) * world :=
  match r with
  | (Ok (x, (p, s, u)), w) => (Ok (x, (made_with sub p, s, u)), w)
  | (Exn e, w) => (Exn e, w)
  end.
Lemma make_same p k v : p_insub p = false -> map_make_record (made_with sub p) k v = map_make_record p k v.
Proof. unfold map_make_record. cbn. intros ->. reflexivity. Qed.
Lemma get_same p s u k w : map_get E n (made_with sub p, s, u) k w = same (map_get E n (p, s, u) k w).
Proof.
  unfold map_get. destruct (assoc k s) as [o|]; [|reflexivity]. unfold mbind. destruct (content_of E n o w) as [[x|e] w1]; reflexivity.
Qed.
Lemma set_same p s u k v w : p_insub p = false -> map_set E n (made_with sub p, s, u) k v w = same (map_set E n (p, s, u) k v w).
Proof.
  intros Hp. unfold map_set, mbind. destruct (match assoc k s with Some old => over E n old v | None => ret (v, []) end w) as [[[v1 more]|e] w1]; [|reflexivity].
  unfold ret. cbn [same]. rewrite make_same by assumption. reflexivity.
Qed.
Lemma del_same p s u k w : map_del E (made_with sub p, s, u) k w = same (map_del E (p, s, u) k w).
Proof. unfold map_del. destruct (assoc k s) as [o|]; reflexivity. Qed.
Definition same_st (r : res mapst * world) : res mapst * world :=
  match r with (Ok (p, s, u), w) => (Ok (made_with sub p, s, u), w) | (Exn e, w) => (Exn e, w) end.
Lemma del_keys_same ks : forall p s u w, del_keys E ks (made_with sub p, s, u) w = same_st (del_keys E ks (p, s, u) w).
Proof.
  induction ks as [|k ks IH]; intros p s u w; cbn [del_keys]; [reflexivity|]. unfold mbind. rewrite del_same.
  destruct (map_del E (p, s, u) k w) as [[[x [[p1 s1] u1]]|e] w1]; cbn [same snd]; [apply IH|reflexivity].
Qed.
Lemma kept_del p s u k w x p1 s1 u1 w1 : map_del E (p, s, u) k w = (Ok (x, (p1, s1, u1)), w1) -> p1 = p.
Proof. unfold map_del. destruct (assoc k s); unfold ret; intros H; injection H as _ <- _ _ _; reflexivity. Qed.
Lemma kept_get p s u k w x p1 s1 u1 w1 : map_get E n (p, s, u) k w = (Ok (x, (p1, s1, u1)), w1) -> p1 = p.
Proof.
  unfold map_get. destruct (assoc k s); [|unfold ret; intros H; injection H as _ <- _ _ _; reflexivity].
  intros H. apply mbind_ok in H as (y & w2 & _ & H). unfold ret in H. injection H as _ <- _ _ _. reflexivity.
Qed.
Lemma kept_del_keys ks : forall p s u w p1 s1 u1 w1, del_keys E ks (p, s, u) w = (Ok (p1, s1, u1), w1) -> p1 = p.
Proof.
  induction ks as [|k ks IH]; intros p s u w p1 s1 u1 w1 H; cbn [del_keys] in H; [unfold ret in H; injection H as <- _ _ _; reflexivity|].
  apply mbind_ok in H as ([x [[p2 s2] u2]] & w2 & H1 & H). apply kept_del in H1 as ->. eapply IH. exact H.
Qed.
Lemma kept_config p s u o w x p1 s1 u1 w1 : map_op E n (p, s, u) o w = (Ok (x, (p1, s1, u1)), w1) -> p1 = p.
Proof.
  destruct o as [k|k v|k|k| | |]; cbn [map_op]; intros H.
  - eapply kept_get. exact H.
  - unfold map_set in H. apply mbind_ok in H as ([v1 more] & w2 & _ & H). unfold ret in H. injection H as _ <- _ _ _. reflexivity.
  - eapply kept_del. exact H.
  - apply mbind_ok in H as ([[y|e] [[p2 s2] u2]] & w2 & H1 & H); apply kept_get in H1 as ->.
    + apply mbind_ok in H as ([y2 [[p3 s3] u3]] & w3 & H2 & H). apply kept_del in H2 as ->. unfold ret in H. injection H as _ <- _ _ _. reflexivity.
    + unfold ret in H. injection H as _ <- _ _ _. reflexivity.
  - unfold ret in H. injection H as _ <- _ _ _. reflexivity.
  - unfold ret in H. injection H as _ <- _ _ _. reflexivity.
  - apply mbind_ok in H as ([[p2 s2] u2] & w2 & H1 & H). apply kept_del_keys in H1 as ->. unfold ret in H. injection H as _ <- _ _ _. reflexivity.
Qed.
Lemma op_same p s u o w : p_insub p = false -> map_op E n (made_with sub p, s, u) o w = same (map_op E n (p, s, u) o w).
Proof.
  intros Hp. destruct o as [k|k v|k|k| | |]; cbn [map_op].
  - apply get_same.
  - apply set_same. assumption.
  - apply del_same.
  - unfold mbind. rewrite get_same. destruct (map_get E n (p, s, u) k w) as [[[[x|e] [[p1 s1] u1]]|e] w1]; cbn [same]; try reflexivity.
    rewrite del_same. destruct (map_del E (p1, s1, u1) k w1) as [[[y [[p2 s2] u2]]|e] w2]; reflexivity.
  - reflexivity.
  - reflexivity.
  - unfold mbind. cbn [fst snd]. rewrite del_keys_same. destruct (del_keys E (map fst s) (p, s, u) w) as [[[[p1 s1] u1]|e] w1]; reflexivity.
Qed.
Lemma ops_same ops : forall p s u w, p_insub p = false -> map_ops E n (made_with sub p, s, u) ops w = same (map_ops E n (p, s, u) ops w).
Proof.
  induction ops as [|o ops IH]; intros p s u w Hp; cbn [map_ops]; [reflexivity|]. unfold mbind. rewrite op_same by assumption.
  destruct (map_op E n (p, s, u) o w) as [[[x [[p1 s1] u1]]|e] w1] eqn:Eo; cbn [same snd fst]; [|reflexivity].
  rewrite IH by (rewrite (kept_config _ _ _ _ _ _ _ _ _ _ Eo); assumption).
  destruct (map_ops E n (p1, s1, u1) ops w1) as [[[y [[p2 s2] u2]]|e] w2]; reflexivity.
Qed.
End Same.

(** Where new records go. *)
Section Where.
Variables (E : senv) (n : nat) (d : str).
Lemma value_in v : value v -> in_sub d v.
Proof. intros H c t pre we re ->. destruct (H _ _ _ _ _ eq_refl). Qed.
Lemma content_in o w v o' w' : in_sub d o -> content_of E n o w = (Ok (v, o'), w') -> in_sub d o'.
Proof.
  intros Hi H. destruct o as [| | | | | | |c t pre we re| | |]; cbn [content_of] in H; try (unfold ret in H; injection H as _ <- _; exact Hi).
  apply mbind_ok in H as ([[v1 c1] re1] & w1 & H1 & H). unfold ret in H. injection H as _ <- _. intros ? ? ? ? ? Hx. injection Hx as _ <- _ _ _. eapply Hi. reflexivity.
Qed.
Lemma over_in old v w v1 more w' : in_sub d old -> value v -> over E n old v w = (Ok (v1, more), w') -> in_sub d v1.
Proof.
  intros Hi Hv H. destruct old as [| | | | | | |c t pre we re| | |]; cbn [over] in H; try (unfold ret in H; injection H as <- _ _; apply value_in; exact Hv).
  destruct (is_storable E v); [|unfold ret in H; injection H as <- _ _; apply value_in; exact Hv].
  apply mbind_ok in H as ([c1 old'] & w1 & H1 & H). unfold ret in H. injection H as <- _ _.
  assert (Ho : in_sub d old'). { destruct (s_clean E); [eapply content_in; eassumption|unfold ret in H1; injection H1 as _ <- _; exact Hi]. }
  destruct old'; try (apply value_in; exact Hv). intros ? ? ? ? ? Hx. injection Hx as _ <- _ _ _. eapply Ho. reflexivity.
Qed.
Lemma set_in_items k s o : Forall (in_sub d) (map snd s) -> in_sub d o -> Forall (in_sub d) (map snd (assoc_set k o s)).
Proof.
  induction s as [|[k' x] s IH]; intros H Ho; cbn [assoc_set map snd]; [repeat constructor; assumption|]. cbn [map snd] in H. inversion H; subst.
  destruct (str_eq_dec k' k); cbn [map snd]; constructor; auto.
Qed.
Lemma del_in_items k s : Forall (in_sub d) (map snd s) -> Forall (in_sub d) (map snd (assoc_del k s)).
Proof.
  induction s as [|[k' x] s IH]; intros H; cbn [assoc_del map snd]; [constructor|]. cbn [map snd] in H. inversion H; subst.
  destruct (str_eq_dec k' k); cbn [map snd]; [|constructor]; auto.
Qed.
Lemma assoc_items k s o : Forall (in_sub d) (map snd s) -> assoc k s = Some o -> in_sub d o.
Proof.
  induction s as [|[k' x] s IH]; intros H Ha; cbn [assoc] in Ha; [discriminate|]. cbn [map snd] in H. inversion H; subst.
  destruct (str_eq_dec k' k); [injection Ha as <-; assumption|auto].
Qed.
End Where.
Lemma del_keys_in E d ks : forall p s u w p1 s1 u1 w1, Forall (in_sub d) (map snd s) -> del_keys E ks (p, s, u) w = (Ok (p1, s1, u1), w1) -> Forall (in_sub d) (map snd s1).
Proof.
  induction ks as [|k ks IH]; intros p s u w p1 s1 u1 w1 Hi H; cbn [del_keys] in H; [unfold ret in H; injection H as _ <- _ _; exact Hi|].
  apply mbind_ok in H as ([x [[p2 s2] u2]] & w2 & H1 & H). eapply IH; [|exact H].
  unfold map_del in H1. destruct (assoc k s); unfold ret in H1; injection H1 as _ _ <- _ _; [apply del_in_items|]; assumption.
Qed.
Lemma op_top E n p s u o w x p1 s1 u1 w1 : p_insub p = false -> Forall (in_sub []) (map snd s) -> dict_op_values o ->
  map_op E n (p, s, u) o w = (Ok (x, (p1, s1, u1)), w1) -> Forall (in_sub []) (map snd s1).
Proof.
  intros Hp Hi Hv H.
  assert (Hget : forall k w r p2 s2 u2 w2, map_get E n (p, s, u) k w = (Ok (r, (p2, s2, u2)), w2) -> Forall (in_sub []) (map snd s2)).
  { intros k w0 r p2 s2 u2 w2 Hg. unfold map_get in Hg. destruct (assoc k s) as [o1|] eqn:Ea; [|unfold ret in Hg; injection Hg as _ _ <- _ _; exact Hi].
    apply mbind_ok in Hg as ([v1 o2] & w3 & H1 & Hg). unfold ret in Hg. injection Hg as _ _ <- _ _. apply set_in_items; [exact Hi|]. eapply content_in; [|exact H1]. eapply assoc_items; eassumption. }
  destruct o as [k|k v|k|k| | |]; cbn [map_op dict_op_values] in *.
  - eapply Hget. exact H.
  - unfold map_set in H. apply mbind_ok in H as ([v1 more] & w2 & H1 & H). unfold ret in H. injection H as _ _ <- _ _. rewrite map_app. apply Forall_app. split; [apply del_in_items; exact Hi|].
    constructor; [|constructor]. cbn [snd]. assert (Hv1 : in_sub [] v1).
    { destruct (assoc k s) as [old|] eqn:Ea; [|unfold ret in H1; injection H1 as <- _ _; apply value_in; exact Hv]. eapply over_in; [eapply assoc_items; eassumption|exact Hv|exact H1]. }
    destruct (is_storable E v1); [|exact Hv1]. unfold map_make_record. rewrite Hp. intros ? ? ? ? ? Hx. injection Hx as _ <- _ _ _. reflexivity.
  - unfold map_del in H. destruct (assoc k s); unfold ret in H; injection H as _ _ <- _ _; [apply del_in_items|]; exact Hi.
  - apply mbind_ok in H as ([[y|e] [[p2 s2] u2]] & w2 & H1 & H); apply Hget in H1.
    + apply mbind_ok in H as ([y2 [[p3 s3] u3]] & w3 & H2 & H). unfold ret in H. injection H as _ _ <- _ _.
      unfold map_del in H2. destruct (assoc k s2); unfold ret in H2; injection H2 as _ _ <- _ _; [apply del_in_items|]; exact H1.
    + unfold ret in H. injection H as _ _ <- _ _. exact H1.
  - unfold ret in H. injection H as _ _ <- _ _. exact Hi.
  - unfold ret in H. injection H as _ _ <- _ _. exact Hi.
  - apply mbind_ok in H as ([[p2 s2] u2] & w2 & H1 & H). unfold ret in H. injection H as _ _ <- _ _. eapply del_keys_in; [exact Hi|exact H1].
Qed.

(** ** Theorems *)
(** Unless [store_subdir] is set, every use of the dict gives the same results, the same items in the same records and the
    same disk, whatever [subdir] it was made with. *)
Theorem C74_subdir_ignored : forall E n sub ops p s u w,
  p_insub p = false ->
  match map_ops E n (p, s, u) ops w with
  | (Ok (rs, (p', s', u')), w') => map_ops E n (made_with sub p, s, u) ops w = (Ok (rs, (made_with sub p', s', u')), w')
  | (Exn e, w') => map_ops E n (made_with sub p, s, u) ops w = (Exn e, w')
  end.
Proof.
  intros E n sub ops p s u w Hp. rewrite (ops_same E n sub ops p s u w Hp). destruct (map_ops E n (p, s, u) ops w) as [[[rs [[p' s'] u']]|e] w']; reflexivity.
Qed.
(** All records such a dict makes are for files directly in its directory. *)
Theorem C74_dict_files_at_top : forall E n ops p s u w rs p' s' u' w',
  p_insub p = false -> Forall (in_sub []) (map snd s) -> Forall dict_op_values ops ->
  map_ops E n (p, s, u) ops w = (Ok (rs, (p', s', u')), w') -> Forall (in_sub []) (map snd s').
Proof.
  intros E n ops. induction ops as [|o ops IH]; intros p s u w rs p' s' u' w' Hp Hi Hv H; cbn [map_ops] in H.
  - unfold ret in H. injection H as _ _ <- _ _. exact Hi.
  - inversion Hv as [|? ? V1 V2]; subst. apply mbind_ok in H as ([r1 [[p1 s1] u1]] & w1 & H1 & H). apply mbind_ok in H as ([rs2 [[p2 s2] u2]] & w2 & H2 & H). unfold ret in H. cbn [snd] in H, H2. injection H as _ _ <- _ _.
    eapply (IH p1 s1); [rewrite (kept_config _ _ _ _ _ _ _ _ _ _ _ _ H1); exact Hp|eapply op_top; [exact Hp|exact Hi|exact V1|exact H1]|exact V2|exact H2].
Qed.

(** Lists do use it. *)
Lemma wrap_in E q v q' v' : q_runs q = None -> in_sub (q_sub q) v -> seq_wrap E q v = (q', v') -> q' = q /\ in_sub (q_sub q) v'.
Proof.
  intros Hq Hv H. unfold seq_wrap, seq_make_record in H. rewrite Hq in H. destruct (is_storable E v); injection H as <- <-; split; try reflexivity; [|exact Hv].
  intros ? ? ? ? ? Hx. injection Hx as _ <- _ _ _. reflexivity.
Qed.
Lemma Forall_set_nth {A} (P : A -> Prop) k x l : Forall P l -> P x -> Forall P (set_nth k x l).
Proof. intros H Hx. revert k. induction H; intros [|k]; cbn; constructor; auto. Qed.
Lemma Forall_firstn_ {A} (P : A -> Prop) k l : Forall P l -> Forall P (firstn k l).
Proof. intros H. revert k. induction H; intros [|k]; cbn; constructor; auto. Qed.
Lemma Forall_skipn_ {A} (P : A -> Prop) k l : Forall P l -> Forall P (skipn k l).
Proof. intros H. revert k. induction H; intros [|k]; cbn; try constructor; auto. Qed.
Lemma Forall_nth_ {A} (P : A -> Prop) k l x : Forall P l -> nth_error l k = Some x -> P x.
Proof. intros H Hx. rewrite Forall_forall in H. apply H. eapply nth_error_In. exact Hx. Qed.
Section Lists.
Variables (E : senv) (n : nat) (q : seqcfg).
Hypothesis Hq : q_runs q = None.
Let inn := Forall (in_sub (q_sub q)).
Lemma lget_in s u i w r q' s' u' w' : inn s -> seq_get E n (q, s, u) i w = (Ok (r, (q', s', u')), w') -> q' = q /\ inn s'.
Proof.
  intros Hi H. unfold seq_get in H. destruct (list_pos i (List.length s)) as [k|]; [|unfold ret in H; injection H as _ <- <- _ _; auto].
  destruct (nth_error s k) as [o|] eqn:Ek; [|unfold ret in H; injection H as _ <- <- _ _; auto].
  apply mbind_ok in H as ([v o'] & w1 & H1 & H). unfold ret in H. injection H as _ <- <- _ _. split; [reflexivity|]. apply Forall_set_nth; [exact Hi|].
  eapply content_in; [|exact H1]. eapply Forall_nth_; eassumption.
Qed.
Lemma lset_in s u i v w r q' s' u' w' : inn s -> value v -> seq_set E n (q, s, u) i v w = (Ok (r, (q', s', u')), w') -> q' = q /\ inn s'.
Proof.
  intros Hi Hv H. unfold seq_set in H. destruct (i <? Z.of_nat (List.length s))%Z.
  2:{ destruct (seq_wrap E q v) as [q1 v1] eqn:Ew. apply (wrap_in _ _ _ _ _ Hq) in Ew as [-> _]; [|apply value_in; exact Hv]. unfold ret in H. injection H as _ <- <- _ _. auto. }
  destruct (list_pos i (List.length s)) as [k|]; [|unfold ret in H; injection H as _ <- <- _ _; auto].
  destruct (nth_error s k) as [o|] eqn:Ek; [|unfold ret in H; injection H as _ <- <- _ _; auto].
  apply mbind_ok in H as ([v1 more] & w1 & H1 & H). destruct (seq_wrap E q v1) as [q1 v2] eqn:Ew. unfold ret in H. injection H as _ <- <- _ _.
  apply (wrap_in _ _ _ _ _ Hq) in Ew as [-> Ew]; [|eapply over_in; [eapply Forall_nth_; eassumption|exact Hv|exact H1]]. split; [reflexivity|]. apply Forall_set_nth; assumption.
Qed.
Lemma linsert_in s u i v w r q' s' u' w' : inn s -> value v -> seq_insert E (q, s, u) i v w = (Ok (r, (q', s', u')), w') -> q' = q /\ inn s'.
Proof.
  intros Hi Hv H. unfold seq_insert in H. destruct (seq_wrap E q v) as [q1 v1] eqn:Ew. apply (wrap_in _ _ _ _ _ Hq) in Ew as [-> Ew]; [|apply value_in; exact Hv].
  unfold ret in H. injection H as _ <- <- _ _. split; [reflexivity|]. unfold insert_nth. apply Forall_app. split; [apply Forall_firstn_; exact Hi|]. constructor; [exact Ew|apply Forall_skipn_; exact Hi].
Qed.
Lemma ldel_in s u i w r q' s' u' w' : inn s -> seq_del E (q, s, u) i w = (Ok (r, (q', s', u')), w') -> q' = q /\ inn s'.
Proof.
  intros Hi H. unfold seq_del in H. destruct (list_pos i (List.length s)) as [k|]; unfold ret in H; injection H as _ <- <- _ _; [|auto].
  split; [reflexivity|]. unfold remove_nth. apply Forall_app. split; [apply Forall_firstn_; exact Hi|apply Forall_skipn_; exact Hi].
Qed.
Lemma lextend_in vs : forall s u w r q' s' u' w', inn s -> Forall value vs -> seq_extend E (q, s, u) vs w = (Ok (r, (q', s', u')), w') -> q' = q /\ inn s'.
Proof.
  induction vs as [|v vs IH]; intros s u w r q' s' u' w' Hi Hv H; cbn [seq_extend] in H; [unfold ret in H; injection H as _ <- <- _ _; auto|].
  inversion Hv; subst. apply mbind_ok in H as ([r1 [[q1 s1] u1]] & w1 & H1 & H). apply linsert_in in H1 as [-> H1]; [|exact Hi|assumption]. eapply IH; eassumption.
Qed.
Lemma ldel_last_in k : forall s u w q' s' u' w', inn s -> del_last E k (q, s, u) w = (Ok (q', s', u'), w') -> q' = q /\ inn s'.
Proof.
  induction k as [|k IH]; intros s u w q' s' u' w' Hi H; cbn [del_last] in H; [unfold ret in H; injection H as <- <- _ _; auto|].
  apply mbind_ok in H as ([r1 [[q1 s1] u1]] & w1 & H1 & H). apply ldel_in in H1 as [-> H1]; [|exact Hi]. eapply IH; eassumption.
Qed.
Lemma lall_in s : forall w xs w', inn s -> mapM (content_of E n) s w = (Ok xs, w') -> inn (map snd xs).
Proof.
  induction s as [|o s IH]; intros w xs w' Hi H; cbn [mapM] in H; [unfold ret in H; injection H as <- _; constructor|].
  inversion Hi as [|? ? Hi1 Hi2]; subst. apply mbind_ok in H as ([v o'] & w1 & H1 & H). apply mbind_ok in H as (ys & w2 & H2 & H). unfold ret in H. injection H as <- _.
  cbn [map snd]. constructor; [eapply content_in; eassumption|eapply IH; eassumption].
Qed.
Lemma lop_in s u o w r q' s' u' w' : inn s -> list_op_values o -> seq_op E n (q, s, u) o w = (Ok (r, (q', s', u')), w') -> q' = q /\ inn s'.
Proof.
  intros Hi Hv H. destruct o as [i|i v|i v|i|v|vs|i| | |]; cbn [seq_op list_op_values] in *.
  - eapply lget_in; [exact Hi|exact H].
  - eapply lset_in; [exact Hi|exact Hv|exact H].
  - eapply linsert_in; [exact Hi|exact Hv|exact H].
  - eapply ldel_in; [exact Hi|exact H].
  - eapply linsert_in; [exact Hi|exact Hv|exact H].
  - eapply lextend_in; [exact Hi|exact Hv|exact H].
  - apply mbind_ok in H as ([[v|e] [[q1 s1] u1]] & w1 & H1 & H); apply lget_in in H1 as [-> H1]; try exact Hi.
    + apply mbind_ok in H as ([r2 [[q2 s2] u2]] & w2 & H2 & H). apply ldel_in in H2 as [-> H2]; [|exact H1]. unfold ret in H. cbn [snd] in H. injection H as _ <- <- _ _. auto.
    + unfold ret in H. injection H as _ <- <- _ _. auto.
  - unfold ret in H. injection H as _ <- <- _ _. auto.
  - apply mbind_ok in H as (xs & w1 & H1 & H). unfold ret in H. injection H as _ <- <- _ _. split; [reflexivity|eapply lall_in; eassumption].
  - unfold seq_clear in H. apply mbind_ok in H as ([[q1 s1] u1] & w1 & H1 & H). apply ldel_last_in in H1 as [-> H1]; [|exact Hi]. rewrite Hq in H. unfold ret in H. injection H as _ <- <- _ _. auto.
Qed.
End Lists.
Theorem C74_list_files_in_subdir : forall E n ops q s u w rs q' s' u' w',
  q_runs q = None -> Forall (in_sub (q_sub q)) s -> Forall list_op_values ops ->
  seq_ops E n (q, s, u) ops w = (Ok (rs, (q', s', u')), w') -> q' = q /\ Forall (in_sub (q_sub q)) s'.
Proof.
  intros E n ops. induction ops as [|o ops IH]; intros q s u w rs q' s' u' w' Hq Hi Hv H; cbn [seq_ops] in H.
  - unfold ret in H. injection H as _ <- <- _ _. auto.
  - inversion Hv as [|? ? V1 V2]; subst. apply mbind_ok in H as ([r1 [[q1 s1] u1]] & w1 & H1 & H). apply mbind_ok in H as ([rs2 [[q2 s2] u2]] & w2 & H2 & H). unfold ret in H. cbn [snd] in H, H2. injection H as _ <- <- _ _.
    destruct (lop_in E n q Hq _ _ _ _ _ _ _ _ _ Hi V1 H1) as [-> Hi1]. eapply IH; eassumption.
Qed.

(** ** Examples *)
(** examples/cases/example_svm.py:88 makes [mdict(store_by_key=True, subdir="svm-data")]: there is no svm-data. *)
Definition sd_dict : mapcfg := mkMap false ($"svm-data") false true false.
Definition sd_list : seqcfg := mkSeq false ($"svm-data") false None.
Definition sd_at (w : world) (l : list str) : bool :=
  match file_at (w_fs w) (location (s_cwd rt_env) (key_dir ex_opts ($"new")) ++ l) with Some _ => true | None => false end.
Example C74_dict_example :
  let ops := [DSet ($"a") (blob "one"); DSet ($"b") (blob "two"); DGet ($"a"); DPop ($"b")] in
  p_insub sd_dict = false /\ Forall dict_op_values ops /\
  exists rs s' u' w', map_ops rt_env 10 (sd_dict, [], []) ops ex_world = (Ok (rs, (sd_dict, s', u')), w') /\ List.length s' = 1 /\
  exists o' j w2, save rt_env 10 ex_opts ($"new") (OMap sd_dict s' u') w' = (Ok (o', j), w2) /\
    sd_at w2 [$"a.bin"] = true /\ sd_at w2 [$"svm-data"; $"a.bin"] = false.
Proof.
  intros ops. split; [reflexivity|]. split; [repeat (constructor; [first [exact I|intros ? ? ? ? ?; discriminate]|]); constructor|].
  let x := eval vm_compute in (map_ops rt_env 10 (sd_dict, [], []) [DSet ($"a") (blob "one"); DSet ($"b") (blob "two"); DGet ($"a"); DPop ($"b")] ex_world) in
    match x with (Ok (?rs, (_, ?s, ?u)), ?w) => exists rs, s, u, w; split; [vm_compute; reflexivity|]; split; [reflexivity|];
      let y := eval vm_compute in (save rt_env 10 ex_opts ($"new") (OMap sd_dict s u) w) in match y with (Ok (?o, ?j), ?w2) => exists o, j, w2 end end.
  repeat split; vm_compute; reflexivity.
Qed.
Example C74_list_example :
  let ops := [LAppend (blob "one"); LInsert 0 (blob "two"); LGet 0; LPop 0] in
  q_runs sd_list = None /\ Forall list_op_values ops /\
  exists rs s' u' w', seq_ops rt_env 10 (sd_list, [], []) ops ex_world = (Ok (rs, (sd_list, s', u')), w') /\ List.length s' = 1 /\
  exists o' j w2, save rt_env 10 ex_opts ($"new") (OSeq sd_list s' u') w' = (Ok (o', j), w2) /\ sd_at w2 [$"svm-data"; $"uuid2.bin"] = true.
Proof.
  intros ops. split; [reflexivity|]. split; [repeat (constructor; [first [exact I|intros ? ? ? ? ?; discriminate]|]); constructor|].
  let x := eval vm_compute in (seq_ops rt_env 10 (sd_list, [], []) [LAppend (blob "one"); LInsert 0 (blob "two"); LGet 0; LPop 0] ex_world) in
    match x with (Ok (?rs, (_, ?s, ?u)), ?w) => exists rs, s, u, w; split; [vm_compute; reflexivity|]; split; [reflexivity|];
      let y := eval vm_compute in (save rt_env 10 ex_opts ($"new") (OSeq sd_list s u) w) in match y with (Ok (?o, ?j), ?w2) => exists o, j, w2 end end.
  repeat split; vm_compute; reflexivity.
Qed.
Print Assumptions C74_subdir_ignored.
Print Assumptions C74_dict_files_at_top.
Print Assumptions C74_list_files_in_subdir.
