(** No operation on a list or dict marks the file of an item that stays for removal: C72. *)
From Coq Require Import List Ascii String Bool Arith ZArith Lia Permutation.
From Verif Require Import Base PosixModel FsModel PathModel SerialModel StoreModel TrackModel ContainerModel FieldModel PropsContainer PropsField StoreFrame StoreMount StoreSpec StoreLocal StorePlace
     StoreRecord StoreSave StoreEvents StoreExample SerialSpec SerialProof RoundSpec KeepSpec RoundProof ReplayProof CleanProof DropProof DropSettled KeepProof ContextProof KeepSave PathSpec MountSpec DirSpec
     PosixProof FsProof DirProof TargetProof MountProof HistoryProof PathFacts PropsStore PropsRepo PropsRound PropsKeep PropsDelete PropsReplace PropsDropped.
Import ListNotations.

Local Arguments str_eq_dec : simpl never.
Local Arguments atom_eq_dec : simpl never.

(** ** Specification *)
(** The files of the records in a list; a record that was never stored and has no full name yet has none. *)
Definition file_names (l : list obj) : list target :=
  flat_map (fun o => match o with ORec _ t _ _ _ => match t_stem t, t_suffix t with Some _, Some _ => [t] | _, _ => [] end | _ => [] end) l.
(** A value that is not a record itself. *)
Definition value (o : obj) : Prop := forall c t pre we re, o <> ORec c t pre we re.
(** Records hold values. *)
Definition flat (o : obj) : Prop := forall c t pre we re, o = ORec c t pre we re -> value c.
Definition list_op_values (o : sop) : Prop :=
  match o with LSet _ v | LInsert _ v | LAppend v => value v | LExtend vs => Forall value vs | _ => True end.
Definition dict_op_values (o : dop) : Prop := match o with DSet _ v => value v | _ => True end.

Definition target_eq_dec (a b : target) : {a = b} + {a <> b}.
Proof.
  assert (Hp : forall x y : option str, {x = y} + {x <> y}) by (decide equality; apply str_eq_dec).
  decide equality.
Defined.
Section Counts.
Variable t : target.
Definition cnt (l : list obj) : nat := count_occ target_eq_dec (file_names l) t.
Lemma cnt_app a b : cnt (a ++ b) = cnt a + cnt b.
Proof. unfold cnt, file_names. rewrite flat_map_app. apply count_occ_app. Qed.
Lemma cnt_cons x l : cnt (x :: l) = cnt [x] + cnt l.
Proof. change (x :: l) with ([x] ++ l). apply cnt_app. Qed.
Lemma cnt_nil : cnt [] = 0.
Proof. reflexivity. Qed.
Lemma cnt_value v : value v -> cnt [v] = 0.
Proof. intros H. destruct v; try reflexivity. exfalso. eapply H. reflexivity. Qed.
Lemma set_nth_split {A} k (s : list A) x y : nth_error s k = Some x -> s = firstn k s ++ x :: skipn (S k) s /\ set_nth k y s = firstn k s ++ y :: skipn (S k) s.
Proof.
  revert k. induction s as [|z s IH]; intros [|k] H; try discriminate; cbn in H.
  - injection H as ->. split; reflexivity.
  - destruct (IH k H) as [H1 H2]. cbn [firstn skipn app set_nth]. split; f_equal; assumption.
Qed.
Lemma cnt_set k s x y : nth_error s k = Some x -> cnt (set_nth k y s) + cnt [x] = cnt s + cnt [y].
Proof.
  intros H. destruct (set_nth_split k s x y H) as [H1 H2]. apply (f_equal cnt) in H1. rewrite H1, H2, !cnt_app, (cnt_cons x (skipn (S k) s)), (cnt_cons y (skipn (S k) s)). lia.
Qed.
Lemma cnt_remove k s x : nth_error s k = Some x -> cnt (remove_nth k s) + cnt [x] = cnt s.
Proof. intros H. destruct (set_nth_split k s x x H) as [H1 _]. apply (f_equal cnt) in H1. rewrite H1. unfold remove_nth. rewrite !cnt_app, (cnt_cons x (skipn (S k) s)). lia. Qed.
Lemma cnt_insert k s x : cnt (insert_nth k x s) = cnt s + cnt [x].
Proof. unfold insert_nth. pose proof (f_equal cnt (firstn_skipn k s)) as H. rewrite cnt_app in H. rewrite cnt_app, (cnt_cons x (skipn k s)). lia. Qed.
Lemma cnt_assoc_set k s x y : assoc k s = Some x -> cnt (map snd (assoc_set k y s)) + cnt [x] = cnt (map snd s) + cnt [y].
Proof.
  induction s as [|[k2 z] s IH]; [discriminate|]. cbn [assoc assoc_set]. destruct (str_eq_dec k2 k) as [->|Hne]; intros H; cbn [map snd].
  - injection H as ->. rewrite (cnt_cons x (map snd s)), (cnt_cons y (map snd s)). lia.
  - rewrite (cnt_cons z (map snd s)), (cnt_cons z (map snd (assoc_set k y s))). specialize (IH H). lia.
Qed.
Lemma cnt_assoc_del k s x : NoDup (map fst s) -> assoc k s = Some x -> cnt (map snd (assoc_del k s)) + cnt [x] = cnt (map snd s).
Proof.
  induction s as [|[k2 z] s IH]; [discriminate|]. cbn [assoc assoc_del map fst]. intros Hn. inversion Hn as [|? ? H1 H2]; subst. destruct (str_eq_dec k2 k) as [->|Hne]; intros H; cbn [map snd].
  - injection H as ->. rewrite del_notin by assumption. rewrite (cnt_cons x (map snd s)). lia.
  - rewrite (cnt_cons z (map snd s)), (cnt_cons z (map snd (assoc_del k s))). specialize (IH H2 H). lia.
Qed.

End Counts.
Section Ops.
Variable E : senv.
Variable n : nat.
Hypothesis Hclean : s_clean E = true.

(** What is read from a file is never a record. *)
Lemma object_value F cx ty p w o w' : ty <> DRec -> de_object E F cx ty p w = (Ok o, w') -> value o.
Proof.
  intros Hty H. unfold de_object in H. apply mbind_ok in H as (r & w1 & H1 & H). destruct r as [o1|e].
  2:{ destruct (is_ser_error e); [discriminate|]. unfold ret in H. injection H as <- _. intros c t0 pre we re. discriminate. }
  unfold ret in H. injection H as <- <-. apply attempt_ok in H1. destruct p as [|l|d]; try discriminate. destruct ty as [|runs sto|sto|c|k]; [congruence| | | |].
  - unfold de_seq in H1. destruct (get "store" d) as [[|l|]|]; try discriminate;
      (apply mbind_ok in H1 as (vs & w2 & _ & H1); destruct (fold_left (seq_append E) vs _) as [q s]; unfold ret in H1; injection H1 as <- _; intros ? ? ? ? ?; discriminate).
  - unfold de_map in H1. destruct (get "store" d) as [[| |l]|]; try discriminate; [apply mbind_ok in H1 as (vs & w2 & _ & H1)|]; unfold ret in H1; injection H1 as <- _; intros ? ? ? ? ?; discriminate.
  - unfold de_model in H1. destruct (k_kind (s_class E c)); [discriminate|]. apply mbind_ok in H1 as (fs0 & w2 & _ & H1). unfold ret in H1. injection H1 as <- _. intros ? ? ? ? ?; discriminate.
  - unfold ret in H1. injection H1 as <- _. intros ? ? ? ? ?; discriminate.
Qed.
Lemma sto_not_rec ty d : sto_ty E ty = Some (STObj d) -> d <> DRec.
Proof.
  unfold sto_ty. destruct (str_eq_dec _ _); [intros H; injection H as <-; discriminate|]. destruct (str_eq_dec _ _); [intros H; injection H as <-; discriminate|].
  destruct (str_eq_dec _ _); [intros H; injection H as <-; discriminate|]. destruct (s_sto E ty) as [c|]; [|discriminate]. destruct (k_kind (s_class E c)); intros H; [discriminate|]. injection H as <-. discriminate.
Qed.
Lemma load_value c re w v c' re' w' : value c -> rec_load E (depth E n) c re w = (Ok (v, c', re'), w') -> value v /\ value c'.
Proof.
  intros Hc H. destruct c as [| | | | | | |c t0 pre we re0|ty t0 b cx| |]; cbn [rec_load] in H; try (unfold ret in H; injection H as <- <- _ _; split; exact Hc).
  apply mbind_ok in H as (x & w1 & H1 & H). assert (Hx : value x).
  { unfold ctx_read in H1. apply mbind_ok in H1 as (r & w2 & H2 & H1). destruct r as [o|e].
    - unfold ret in H1. injection H1 as <- _. apply attempt_ok in H2. apply mbind_ok in H2 as ([local nt] & w3 & _ & H2). apply mbind_ok in H2 as (l & w4 & _ & H2).
      unfold read_storable in H2. destruct ty as [ty|]; [|discriminate]. destruct (sto_ty E ty) as [[c|d]|] eqn:Ety; [| |discriminate].
      + apply mbind_ok in H2 as (y & w5 & _ & H2). apply mbind_ok in H2 as (d & w6 & _ & H2). unfold ret in H2. injection H2 as <- _. intros ? ? ? ? ?; discriminate.
      + apply mbind_ok in H2 as (y & w5 & _ & H2). destruct y as [|j]; [discriminate|]. pose proof (sto_not_rec _ _ Ety) as Hd. destruct n as [|m]; [discriminate|].
        cbn [depth f_de] in H2. unfold de_body in H2. assert (Hg : forall p0 w0 o0 w9, (o2 <- de_object E (depth E m) (Some local) d p0;; match o2 with OMark _ => _ <- invalid_found E;; ret o2 | _ => ret o2 end) w0 = (Ok o0, w9) -> value o0).
        { intros p0 w0 o0 w9 Hg. apply mbind_ok in Hg as (o2 & w8 & Hg1 & Hg2). apply object_value in Hg1; [|assumption].
          destruct o2; try (unfold ret in Hg2; injection Hg2 as <- _; exact Hg1). apply mbind_ok in Hg2 as (u0 & w7 & _ & Hg2). unfold ret in Hg2. injection Hg2 as <- _. exact Hg1. }
        destruct (of_json j) as [[]| |]; try (eapply Hg; exact H2). unfold ret in H2. injection H2 as <- _. intros ? ? ? ? ?; discriminate.
    - assert (Hm : forall mk, (_ <- invalid_found E;; ret (OMark mk)) w2 = (Ok x, w1) -> value x).
      { intros mk Hq. apply mbind_ok in Hq as (u0 & w3 & _ & Hq). unfold ret in Hq. injection Hq as <- _. intros ? ? ? ? ?; discriminate. }
      destruct e; try (exact (Hm _ H1)); cbn in H1; discriminate. }
  destruct x; unfold ret in H; injection H as <- <- _ _; (split; [exact Hx|]); try exact Hx; try exact Hc.
Qed.
Lemma content_flat o w v o' w' : flat o -> content_of E n o w = (Ok (v, o'), w') -> flat o' /\ value v /\ forall a, cnt a [o'] = cnt a [o].
Proof.
  intros Hf H. destruct o as [| | | | | | |c t0 pre we re| | |]; cbn [content_of] in H;
    try (unfold ret in H; injection H as <- <- _; split; [exact Hf|]; split; [intros ? ? ? ? ?; discriminate|reflexivity]).
  apply mbind_ok in H as ([[v1 c1] re1] & w1 & H1 & H). unfold ret in H. injection H as <- <- _. destruct (load_value c re w v1 c1 re1 w1 (Hf _ _ _ _ _ eq_refl) H1) as [H2 H3].
  split; [intros ? ? ? ? ? Hx; injection Hx as <- _ _ _ _; exact H3|]. split; [exact H2|reflexivity].
Qed.
Lemma storable_value v : is_storable E v = true -> value v.
Proof. intros H c t0 pre we re ->. discriminate. Qed.
Lemma value_flat v : value v -> flat v.
Proof. intros H c t0 pre we re ->. exfalso. eapply H. reflexivity. Qed.
Lemma over_flat old v w v1 more w' : flat old -> value v -> over E n old v w = (Ok (v1, more), w') -> flat v1 /\ Forall flat more /\ (forall a, cnt a [v1] + cnt a more = cnt a [old]).
Proof.
  intros Hf Hv H. assert (Hno : forall x, (ret (v, if s_clean E && is_removable x then [x] else []) w = (Ok (v1, more), w')) -> value x -> flat v1 /\ Forall flat more /\ (forall a, cnt a [v1] + cnt a more = cnt a [x])).
  { intros x Hx Hxv. unfold ret in Hx. injection Hx as <- <- _. split; [apply value_flat; assumption|]. split; [destruct (s_clean E && is_removable x); constructor; [apply value_flat; assumption|constructor]|].
    intros a. rewrite (cnt_value a v Hv), (cnt_value a x Hxv). destruct (s_clean E && is_removable x); [rewrite (cnt_value a x Hxv)|]; reflexivity. }
  destruct old as [| | | | | | |c t0 pre we re| | |]; unfold over in H; try (apply Hno; [exact H|intros ? ? ? ? ?; discriminate]).
  destruct (is_storable E v) eqn:Ev.
  - apply mbind_ok in H as ([c1 old'] & w1 & H1 & H). rewrite Hclean in H1. destruct (content_flat _ _ _ _ _ Hf H1) as (F1 & V1 & C1).
    destruct old' as [| | | | | | |c2 t2 p2 we2 re2| | |]; try (cbn [content_of] in H1; apply mbind_ok in H1 as ([[v9 c9] re9] & w9 & _ & H1); discriminate).
    unfold ret in H. injection H as <- <- _. split; [intros ? ? ? ? ? Hx; injection Hx as <- _ _ _ _; exact Hv|]. split; [destruct (s_clean E && is_removable c1); constructor; [apply value_flat; assumption|constructor]|].
    intros a. rewrite <- C1. assert (Hm : cnt a (if s_clean E && is_removable c1 then [c1] else []) = 0) by (destruct (s_clean E && is_removable c1); [apply cnt_value; assumption|reflexivity]). rewrite Hm, Nat.add_0_r. reflexivity.
  - unfold ret in H. injection H as <- <- _. rewrite Hclean. split; [apply value_flat; assumption|]. split; [constructor; [exact Hf|constructor]|]. intros a. rewrite (cnt_value a v Hv). reflexivity.
Qed.
Lemma wrap_flat q v q' v' : flat v -> seq_wrap E q v = (q', v') -> flat v' /\ forall a, cnt a [v'] = cnt a [v].
Proof.
  intros Hf H. unfold seq_wrap in H. destruct (is_storable E v) eqn:Ev; [|injection H as _ <-; auto]. pose proof (storable_value v Ev) as Hv. unfold seq_make_record in H.
  destruct (q_runs q) as [[[stem k] ss]|]; injection H as _ <-.
  - split; [intros ? ? ? ? ? Hx; injection Hx as <- _ _ _ _; exact Hv|]. intros a. rewrite (cnt_value a v Hv). destruct ss; reflexivity.
  - split; [intros ? ? ? ? ? Hx; injection Hx as <- _ _ _ _; exact Hv|]. intros a. rewrite (cnt_value a v Hv). reflexivity.
Qed.

(** Lists. *)
Definition even_ (s u s' u' : list obj) : Prop := Forall flat s' /\ forall a, cnt a s' + cnt a u' = cnt a s + cnt a u.
Lemma even_refl s u : Forall flat s -> even_ s u s u.
Proof. split; auto. Qed.
Lemma even_trans s u s1 u1 s2 u2 : even_ s u s1 u1 -> even_ s1 u1 s2 u2 -> even_ s u s2 u2.
Proof. intros [_ H1] [H2 H3]. split; [assumption|]. intros a. rewrite H3. apply H1. Qed.
Lemma flat_at k s (x : obj) : Forall flat s -> nth_error s k = Some x -> flat x.
Proof. intros H Hk. rewrite Forall_forall in H. apply H. eapply nth_error_In. eassumption. Qed.
Lemma flat_set k s x (y : obj) : nth_error s k = Some x -> Forall flat s -> flat y -> Forall flat (set_nth k y s).
Proof.
  intros Hk Hs Hy. destruct (set_nth_split k s x y Hk) as [H1 ->]. rewrite H1 in Hs. apply Forall_app in Hs as [Ha Hb]. inversion Hb; subst. apply Forall_app. split; [assumption|constructor; assumption].
Qed.
Lemma get_even q s u i w r q' s' u' w' : Forall flat s -> seq_get E n (q, s, u) i w = (Ok (r, (q', s', u')), w') -> even_ s u s' u'.
Proof.
  intros Hf. unfold seq_get. destruct (list_pos i (List.length s)) as [k|]; [|unfold ret; intros H; injection H as _ _ <- <- _; apply even_refl; assumption].
  destruct (nth_error s k) as [o|] eqn:Ek; [|unfold ret; intros H; injection H as _ _ <- <- _; apply even_refl; assumption].
  intros H. apply mbind_ok in H as ([v o'] & w1 & H1 & H). unfold ret in H. injection H as _ _ <- <- _. destruct (content_flat _ _ _ _ _ (flat_at k s o Hf Ek) H1) as (F1 & _ & C1).
  split; [eapply flat_set; eassumption|]. intros a. pose proof (cnt_set a k s o o' Ek) as Hc. rewrite C1 in Hc. cbn [snd]. lia.
Qed.
Lemma set_even q s u i v w r q' s' u' w' : Forall flat s -> value v -> seq_set E n (q, s, u) i v w = (Ok (r, (q', s', u')), w') -> even_ s u s' u'.
Proof.
  intros Hf Hv. unfold seq_set. destruct (i <? Z.of_nat (List.length s))%Z; [|destruct (seq_wrap E q v) as [q1 v1]; unfold ret; intros H; injection H as _ _ <- <- _; apply even_refl; assumption].
  destruct (list_pos i (List.length s)) as [k|]; [|unfold ret; intros H; injection H as _ _ <- <- _; apply even_refl; assumption].
  destruct (nth_error s k) as [o|] eqn:Ek; [|unfold ret; intros H; injection H as _ _ <- <- _; apply even_refl; assumption].
  intros H. apply mbind_ok in H as ([v1 more] & w1 & H1 & H). destruct (seq_wrap E q v1) as [q1 v2] eqn:Ew. unfold ret in H. injection H as _ _ <- <- _.
  destruct (over_flat _ _ _ _ _ _ (flat_at k s o Hf Ek) Hv H1) as (F1 & _ & C1). destruct (wrap_flat _ _ _ _ F1 Ew) as [F2 C2].
  split; [eapply flat_set; eassumption|]. intros a. rewrite cnt_app. pose proof (cnt_set a k s o v2 Ek) as Hc. rewrite C2 in Hc. specialize (C1 a). lia.
Qed.
Lemma insert_even q s u i v w r q' s' u' w' : Forall flat s -> value v -> seq_insert E (q, s, u) i v w = (Ok (r, (q', s', u')), w') -> even_ s u s' u'.
Proof.
  intros Hf Hv. unfold seq_insert. destruct (seq_wrap E q v) as [q1 v1] eqn:Ew. unfold ret. intros H. injection H as _ _ <- <- _. destruct (wrap_flat _ _ _ _ (value_flat v Hv) Ew) as [F2 C2]. split.
  - unfold insert_nth. rewrite <- (firstn_skipn (insert_pos i (List.length s)) s) in Hf. apply Forall_app in Hf as [Ha Hb]. apply Forall_app. split; [assumption|constructor; assumption].
  - intros a. rewrite cnt_insert, C2, (cnt_value a v Hv). lia.
Qed.
Lemma removable_cnt (o : obj) a : flat o -> cnt a (if s_clean E && is_removable o then [o] else []) = cnt a [o].
Proof. intros _. rewrite Hclean. destruct o; reflexivity. Qed.
Lemma flat_remove k s : Forall flat s -> Forall flat (remove_nth k s).
Proof.
  intros H. rewrite Forall_forall in H |- *. intros x Hx. apply H. unfold remove_nth in Hx. apply in_app_or in Hx as [Hx|Hx]; [rewrite <- (firstn_skipn k s); apply in_or_app; auto|].
  rewrite <- (firstn_skipn (S k) s). apply in_or_app. auto.
Qed.
Lemma del_even q s u i w r q' s' u' w' : Forall flat s -> seq_del E (q, s, u) i w = (Ok (r, (q', s', u')), w') -> even_ s u s' u'.
Proof.
  intros Hf. unfold seq_del. destruct (list_pos i (List.length s)) as [k|]; [|unfold ret; intros H; injection H as _ _ <- <- _; apply even_refl; assumption].
  unfold ret. intros H. injection H as _ _ <- <- _. split; [apply flat_remove; assumption|]. intros a. rewrite cnt_app. destruct (nth_error s k) as [x|] eqn:Ek.
  - rewrite removable_cnt by (eapply flat_at; eassumption). pose proof (cnt_remove a k s x Ek). lia.
  - rewrite cnt_nil. apply nth_error_None in Ek. unfold remove_nth. rewrite firstn_all2, skipn_all2, app_nil_r by lia. lia.
Qed.
Lemma del_last_even k : forall q s u w q' s' u' w', Forall flat s -> del_last E k (q, s, u) w = (Ok (q', s', u'), w') -> even_ s u s' u'.
Proof.
  induction k as [|k IH]; intros q s u w q' s' u' w' Hf H; cbn [del_last] in H.
  - unfold ret in H. injection H as _ <- <- _. apply even_refl. assumption.
  - apply mbind_ok in H as ([r [[q1 s1] u1]] & w1 & H1 & H). cbn [snd] in H. pose proof (del_even _ _ _ _ _ _ _ _ _ _ Hf H1) as G. eapply even_trans; [exact G|eapply IH; [apply G|exact H]].
Qed.
Lemma extend_even vs : forall q s u w r q' s' u' w', Forall flat s -> Forall value vs -> seq_extend E (q, s, u) vs w = (Ok (r, (q', s', u')), w') -> even_ s u s' u'.
Proof.
  induction vs as [|v vs IH]; intros q s u w r q' s' u' w' Hf Hv H; cbn [seq_extend] in H.
  - unfold ret in H. injection H as _ _ <- <- _. apply even_refl. assumption.
  - inversion Hv as [|? ? V1 V2]; subst. apply mbind_ok in H as ([r1 [[q1 s1] u1]] & w1 & H1 & H). cbn [snd] in H. pose proof (insert_even _ _ _ _ _ _ _ _ _ _ _ Hf V1 H1) as G.
    eapply even_trans; [exact G|eapply IH; [apply G|assumption|exact H]].
Qed.
Lemma iter_even s : forall w xs w', Forall flat s -> mapM (content_of E n) s w = (Ok xs, w') -> Forall flat (map snd xs) /\ forall a, cnt a (map snd xs) = cnt a s.
Proof.
  induction s as [|o s IH]; intros w xs w' Hf H; cbn [mapM] in H.
  - unfold ret in H. injection H as <- _. auto.
  - inversion Hf as [|? ? F1 F2]; subst. apply mbind_ok in H as ([v o'] & w1 & H1 & H). apply mbind_ok in H as (ys & w2 & H2 & H). unfold ret in H. injection H as <- _. cbn [map snd].
    destruct (content_flat _ _ _ _ _ F1 H1) as (G1 & _ & C1). destruct (IH _ _ _ F2 H2) as [G2 C2]. split; [constructor; assumption|]. intros a. rewrite (cnt_cons a o'), (cnt_cons a o s), C1, C2. reflexivity.
Qed.
Lemma op_even q s u o w r q' s' u' w' : Forall flat s -> list_op_values o -> seq_op E n (q, s, u) o w = (Ok (r, (q', s', u')), w') -> even_ s u s' u'.
Proof.
  intros Hf Hv. destruct o as [i|i v|i v|i|v|vs|i| | |]; cbn [seq_op]; cbn [list_op_values] in Hv; intros H.
  - eapply get_even; [exact Hf|exact H].
  - eapply set_even; [exact Hf|exact Hv|exact H].
  - eapply insert_even; [exact Hf|exact Hv|exact H].
  - eapply del_even; [exact Hf|exact H].
  - eapply insert_even; [exact Hf|exact Hv|exact H].
  - eapply extend_even; [exact Hf|exact Hv|exact H].
  - apply mbind_ok in H as ([[v|e] [[q1 s1] u1]] & w1 & H1 & H); pose proof (get_even _ _ _ _ _ _ _ _ _ _ Hf H1) as G.
    + apply mbind_ok in H as ([r2 [[q2 s2] u2]] & w2 & H2 & H). unfold ret in H. cbn [snd] in H. injection H as _ _ <- <- _.
      eapply even_trans; [exact G|eapply del_even; [apply G|exact H2]].
    + unfold ret in H. injection H as _ _ <- <- _. exact G.
  - unfold ret in H. injection H as _ _ <- <- _. apply even_refl. assumption.
  - apply mbind_ok in H as (xs & w1 & H1 & H). unfold ret in H. injection H as _ _ <- <- _. destruct (iter_even _ _ _ _ Hf H1) as [G1 G2]. split; [assumption|]. intros a. rewrite G2. reflexivity.
  - unfold seq_clear in H. apply mbind_ok in H as ([[q1 s1] u1] & w1 & H1 & H). unfold ret in H. injection H as _ _ <- <- _. eapply del_last_even; eassumption.
Qed.
Lemma ops_even ops : forall q s u w rs q' s' u' w', Forall flat s -> Forall list_op_values ops -> seq_ops E n (q, s, u) ops w = (Ok (rs, (q', s', u')), w') -> even_ s u s' u'.
Proof.
  induction ops as [|o ops IH]; intros q s u w rs q' s' u' w' Hf Hv H; cbn [seq_ops] in H.
  - unfold ret in H. injection H as _ _ <- <- _. apply even_refl. assumption.
  - inversion Hv as [|? ? V1 V2]; subst. apply mbind_ok in H as ([r1 [[q1 s1] u1]] & w1 & H1 & H). apply mbind_ok in H as ([rs2 [[q2 s2] u2]] & w2 & H2 & H). unfold ret in H. cbn [snd] in H, H2. injection H as _ _ <- <- _.
    pose proof (op_even _ _ _ _ _ _ _ _ _ _ Hf V1 H1) as G. eapply even_trans; [exact G|eapply IH; [apply G|assumption|exact H2]].
Qed.

(** Dicts. *)
Definition meven (s : list (str * obj)) (u : list obj) (s' : list (str * obj)) (u' : list obj) : Prop := NoDup (map fst s') /\ even_ (map snd s) u (map snd s') u'.
Lemma meven_refl s u : NoDup (map fst s) -> Forall flat (map snd s) -> meven s u s u.
Proof. intros Hn Hf. split; [assumption|apply even_refl; assumption]. Qed.
Lemma meven_trans s u s1 u1 s2 u2 : meven s u s1 u1 -> meven s1 u1 s2 u2 -> meven s u s2 u2.
Proof. intros [_ H1] [H2 H3]. split; [assumption|]. eapply even_trans; eassumption. Qed.
Lemma assoc_flat k s (o : obj) : Forall flat (map snd s) -> assoc k s = Some o -> flat o.
Proof.
  intros H Ha. rewrite Forall_forall in H. apply H. clear H. revert Ha. induction s as [|[k2 z] s IH]; [discriminate|]. cbn [assoc map snd]. destruct (str_eq_dec k2 k); intros Ha; [injection Ha as ->; left; reflexivity|right; auto].
Qed.
Lemma flat_assoc_set k s (y : obj) : Forall flat (map snd s) -> flat y -> Forall flat (map snd (assoc_set k y s)).
Proof.
  intros H Hy. induction s as [|[k2 z] s IH]; cbn [assoc_set map snd]; [constructor; auto|]. cbn [map snd] in H. inversion H as [|? ? H1 H2]; subst.
  destruct (str_eq_dec k2 k); cbn [map snd]; constructor; auto.
Qed.
Lemma flat_assoc_del k (s : list (str * obj)) : Forall flat (map snd s) -> Forall flat (map snd (assoc_del k s)).
Proof.
  intros H. rewrite Forall_forall in H |- *. intros x Hx. apply H. apply in_map_iff in Hx as ([k1 y] & <- & Hin). apply in_del in Hin as [Hin _]. apply (in_map snd) in Hin. exact Hin.
Qed.
Lemma mget_even q s u k w r q' s' u' w' : NoDup (map fst s) -> Forall flat (map snd s) -> map_get E n (q, s, u) k w = (Ok (r, (q', s', u')), w') -> meven s u s' u'.
Proof.
  intros Hn Hf. unfold map_get. destruct (assoc k s) as [o|] eqn:Ek; [|unfold ret; intros H; injection H as _ _ <- <- _; apply meven_refl; assumption].
  intros H. apply mbind_ok in H as ([v o'] & w1 & H1 & H). unfold ret in H. cbn [snd] in H. injection H as _ _ <- <- _.
  destruct (content_flat _ _ _ _ _ (assoc_flat _ _ _ Hf Ek) H1) as (F1 & _ & C1). split; [rewrite (set_keys _ _ _ _ Ek); assumption|]. split; [apply flat_assoc_set; assumption|].
  intros a. pose proof (cnt_assoc_set a k s o o' Ek) as Hc. rewrite C1 in Hc. lia.
Qed.
Lemma make_cnt q k v a : value v -> cnt a [map_make_record q k v] = 0.
Proof. intros _. unfold map_make_record, cnt. cbn. destruct (p_bykey q); reflexivity. Qed.
Lemma mset_even q s u k v w r q' s' u' w' : NoDup (map fst s) -> Forall flat (map snd s) -> value v -> map_set E n (q, s, u) k v w = (Ok (r, (q', s', u')), w') -> meven s u s' u'.
Proof.
  intros Hn Hf Hv. unfold map_set. intros H. apply mbind_ok in H as ([v1 more] & w1 & H1 & H). unfold ret in H. injection H as _ _ <- <- _.
  assert (Hv1 : flat v1 /\ forall a, cnt a [v1] + cnt a more + cnt a (map snd (assoc_del k s)) = cnt a (map snd s)).
  { destruct (assoc k s) as [old|] eqn:Ek.
    - destruct (over_flat _ _ _ _ _ _ (assoc_flat _ _ _ Hf Ek) Hv H1) as (F1 & _ & C1). split; [assumption|]. intros a. specialize (C1 a). pose proof (cnt_assoc_del a k s old Hn Ek). lia.
    - unfold ret in H1. injection H1 as <- <- _. split; [apply value_flat; assumption|]. intros a. rewrite (cnt_value a v Hv), cnt_nil, del_notin; [reflexivity|].
      intros Hi. apply in_map_iff in Hi as ([k1 x] & <- & Hin). cbn [fst] in Ek. rewrite (in_assoc _ _ _ Hn Hin) in Ek. discriminate. }
  destruct Hv1 as [F1 C1]. set (v2 := if is_storable E v1 then map_make_record q k v1 else v1).
  assert (H2 : flat v2 /\ forall a, cnt a [v2] = cnt a [v1]).
  { unfold v2. destruct (is_storable E v1) eqn:Ev; [|auto]. pose proof (storable_value _ Ev) as Hv2. split; [intros ? ? ? ? ? Hx; injection Hx as <- _ _ _ _; exact Hv2|].
    intros a. rewrite make_cnt, (cnt_value a v1) by assumption. reflexivity. }
  destruct H2 as [F2 C2]. split; [apply new_key; assumption|]. split.
  - rewrite map_app. apply Forall_app. split; [apply flat_assoc_del; assumption|constructor; [exact F2|constructor]].
  - intros a. rewrite map_app, !cnt_app. cbn [map snd]. rewrite C2. specialize (C1 a). lia.
Qed.
Lemma mdel_even q s u k w r q' s' u' w' : NoDup (map fst s) -> Forall flat (map snd s) -> map_del E (q, s, u) k w = (Ok (r, (q', s', u')), w') -> meven s u s' u'.
Proof.
  intros Hn Hf. unfold map_del. destruct (assoc k s) as [o|] eqn:Ek; [|unfold ret; intros H; injection H as _ _ <- <- _; apply meven_refl; assumption].
  unfold ret. intros H. injection H as _ _ <- <- _. split; [apply assoc_del_keys; assumption|]. split; [apply flat_assoc_del; assumption|]. intros a. rewrite cnt_app, removable_cnt by (eapply assoc_flat; eassumption).
  pose proof (cnt_assoc_del a k s o Hn Ek). lia.
Qed.
Lemma keys_even ks : forall q s u w q' s' u' w', NoDup (map fst s) -> Forall flat (map snd s) -> del_keys E ks (q, s, u) w = (Ok (q', s', u'), w') -> meven s u s' u'.
Proof.
  induction ks as [|k ks IH]; intros q s u w q' s' u' w' Hn Hf H; cbn [del_keys] in H.
  - unfold ret in H. injection H as _ <- <- _. apply meven_refl; assumption.
  - apply mbind_ok in H as ([r [[q1 s1] u1]] & w1 & H1 & H). cbn [snd] in H. pose proof (mdel_even _ _ _ _ _ _ _ _ _ _ Hn Hf H1) as G. eapply meven_trans; [exact G|eapply IH; [apply G|apply G|exact H]].
Qed.
Lemma mop_even q s u o w r q' s' u' w' : NoDup (map fst s) -> Forall flat (map snd s) -> dict_op_values o -> map_op E n (q, s, u) o w = (Ok (r, (q', s', u')), w') -> meven s u s' u'.
Proof.
  intros Hn Hf Hv. destruct o as [k|k v|k|k| | |]; cbn [map_op]; cbn [dict_op_values] in Hv; intros H.
  - eapply mget_even; eassumption.
  - eapply mset_even; [exact Hn|exact Hf|exact Hv|exact H].
  - eapply mdel_even; eassumption.
  - apply mbind_ok in H as ([[v|e] [[q1 s1] u1]] & w1 & H1 & H); pose proof (mget_even _ _ _ _ _ _ _ _ _ _ Hn Hf H1) as G1.
    + apply mbind_ok in H as ([r2 [[q2 s2] u2]] & w2 & H2 & H). unfold ret in H. cbn [snd] in H. injection H as _ _ <- <- _. eapply meven_trans; [exact G1|eapply mdel_even; [apply G1|apply G1|exact H2]].
    + unfold ret in H. injection H as _ _ <- <- _. exact G1.
  - unfold ret in H. injection H as _ _ <- <- _. apply meven_refl; assumption.
  - unfold ret in H. injection H as _ _ <- <- _. apply meven_refl; assumption.
  - apply mbind_ok in H as ([[q1 s1] u1] & w1 & H1 & H). unfold ret in H. injection H as _ _ <- <- _. eapply keys_even; eassumption.
Qed.
Lemma mops_even ops : forall q s u w rs q' s' u' w', NoDup (map fst s) -> Forall flat (map snd s) -> Forall dict_op_values ops -> map_ops E n (q, s, u) ops w = (Ok (rs, (q', s', u')), w') -> meven s u s' u'.
Proof.
  induction ops as [|o ops IH]; intros q s u w rs q' s' u' w' Hn Hf Hv H; cbn [map_ops] in H.
  - unfold ret in H. injection H as _ _ <- <- _. apply meven_refl; assumption.
  - inversion Hv as [|? ? V1 V2]; subst. apply mbind_ok in H as ([r1 [[q1 s1] u1]] & w1 & H1 & H). apply mbind_ok in H as ([rs2 [[q2 s2] u2]] & w2 & H2 & H). unfold ret in H. cbn [snd] in H, H2. injection H as _ _ <- <- _.
    pose proof (mop_even _ _ _ _ _ _ _ _ _ _ Hn Hf V1 H1) as G1. eapply meven_trans; [exact G1|eapply IH; [apply G1|apply G1|assumption|exact H2]].
Qed.
End Ops.

(** ** Theorems *)
Lemma permuted s u s' u' : (forall a, cnt a s' + cnt a u' = cnt a s + cnt a u) -> Permutation (file_names (s' ++ u')) (file_names (s ++ u)).
Proof.
  intros H. apply (Permutation_count_occ target_eq_dec). intros a. specialize (H a). rewrite <- !cnt_app in H. exact H.
Qed.
(** The files of the items and of those put aside are, as often as each occurs, the same before and after. *)
Theorem C72_list_files_counted : forall E n ops q s u w rs q' s' u' w',
  s_clean E = true -> Forall flat s -> Forall list_op_values ops -> seq_ops E n (q, s, u) ops w = (Ok (rs, (q', s', u')), w') ->
  Permutation (file_names (s' ++ u')) (file_names (s ++ u)).
Proof. intros E n ops q s u w rs q' s' u' w' Hc Hf Hv H. apply permuted. apply (ops_even E n Hc ops q s u w rs q' s' u' w' Hf Hv H). Qed.
Theorem C72_dict_files_counted : forall E n ops q s u w rs q' s' u' w',
  s_clean E = true -> NoDup (map fst s) -> Forall flat (map snd s) -> Forall dict_op_values ops -> map_ops E n (q, s, u) ops w = (Ok (rs, (q', s', u')), w') ->
  Permutation (file_names (map snd s' ++ u')) (file_names (map snd s ++ u)).
Proof. intros E n ops q s u w rs q' s' u' w' Hc Hn Hf Hv H. apply permuted. apply (mops_even E n Hc ops q s u w rs q' s' u' w' Hn Hf Hv H). Qed.
(** So if no two records had the same file, none of the files put aside is the file of an item. *)
Lemma apart s u s' u' t : Permutation (file_names (s' ++ u')) (file_names (s ++ u)) -> NoDup (file_names (s ++ u)) -> In t (file_names s') -> ~ In t (file_names u').
Proof.
  intros Hp Hn H1 H2. apply (Permutation_NoDup (Permutation_sym Hp)) in Hn. unfold file_names in Hn, H1, H2. rewrite flat_map_app in Hn.
  apply in_split in H2 as (a & b & H2). rewrite H2, app_assoc in Hn. apply NoDup_remove_2 in Hn. apply Hn. apply in_or_app. left. apply in_or_app. left. assumption.
Qed.
Theorem C72_list_apart : forall E n ops q s u w rs q' s' u' w' t,
  s_clean E = true -> Forall flat s -> Forall list_op_values ops -> NoDup (file_names (s ++ u)) ->
  seq_ops E n (q, s, u) ops w = (Ok (rs, (q', s', u')), w') -> In t (file_names s') -> ~ In t (file_names u').
Proof. intros E n ops q s u w rs q' s' u' w' t Hc Hf Hv Hn H. eapply apart; [eapply C72_list_files_counted; eassumption|assumption]. Qed.
Theorem C72_dict_apart : forall E n ops q s u w rs q' s' u' w' t,
  s_clean E = true -> NoDup (map fst s) -> Forall flat (map snd s) -> Forall dict_op_values ops -> NoDup (file_names (map snd s ++ u)) ->
  map_ops E n (q, s, u) ops w = (Ok (rs, (q', s', u')), w') -> In t (file_names (map snd s')) -> ~ In t (file_names u').
Proof. intros E n ops q s u w rs q' s' u' w' t Hc Hk Hf Hv Hn H. eapply apart; [eapply C72_dict_files_counted; eassumption|assumption]. Qed.

(** ** Examples *)
Definition xa_ops : list sop := [LSet 0 (OAtom (AInt 5)); LPop 1; LAppend (blob "new"); LSet 1 (blob "other"); LGet (-1); LInsert 0 (OAtom (AInt 1))].
Example C72_list_example :
  s_clean rt_env = true /\ Forall flat dr_list /\ Forall list_op_values xa_ops /\ NoDup (file_names (dr_list ++ [])) /\ List.length (file_names dr_list) = 3 /\
  exists rs q' s' u' w', seq_ops rt_env 10 (dr_q, dr_list, []) xa_ops (dr_start (OSeq dr_q dr_list [])) = (Ok (rs, (q', s', u')), w') /\
    List.length s' = 4 /\ List.length (file_names s') = 1 /\ List.length (file_names u') = 2.
Proof.
  split; [reflexivity|]. split; [repeat (constructor; [intros c t pre we re Hx; injection Hx as <- _ _ _ _; intros ? ? ? ? ?; discriminate|]); constructor|].
  split; [repeat (constructor; [first [exact I|intros ? ? ? ? ?; discriminate]|]); constructor|].
  split; [vm_compute; repeat (apply NoDup_cons; [cbn; intros Hx; repeat (destruct Hx as [Hx|Hx]; [discriminate|]); destruct Hx|]); apply NoDup_nil|]. split; [vm_compute; reflexivity|].
  let v := eval vm_compute in (seq_ops rt_env 10 (dr_q, dr_list, []) xa_ops (dr_start (OSeq dr_q dr_list []))) in match v with (Ok (?rs, (?q, ?s, ?u)), ?w) => exists rs, q, s, u, w end.
  repeat split; vm_compute; reflexivity.
Qed.
Definition xa_dops : list dop := [DSet ($"x") (OAtom (AInt 5)); DPop ($"y"); DSet ($"new") (blob "new"); DSet ($"z") (blob "other"); DGet ($"z")].
Example C72_dict_example :
  NoDup (map fst dr_dict) /\ Forall flat (map snd dr_dict) /\ Forall dict_op_values xa_dops /\ NoDup (file_names (map snd dr_dict ++ [])) /\ List.length (file_names (map snd dr_dict)) = 3 /\
  exists rs q' s' u' w', map_ops rt_env 10 (dr_p, dr_dict, []) xa_dops (dr_start (OMap dr_p dr_dict [])) = (Ok (rs, (q', s', u')), w') /\
    List.length s' = 3 /\ List.length (file_names (map snd s')) = 1 /\ List.length (file_names u') = 2.
Proof.
  split; [cbn; repeat (apply NoDup_cons; [cbn; intuition discriminate|]); apply NoDup_nil|]. split; [cbn [map snd dr_dict]; repeat (constructor; [intros c t pre we re Hx; injection Hx as <- _ _ _ _; intros ? ? ? ? ?; discriminate|]); constructor|].
  split; [repeat (constructor; [first [exact I|intros ? ? ? ? ?; discriminate]|]); constructor|].
  split; [vm_compute; repeat (apply NoDup_cons; [cbn; intros Hx; repeat (destruct Hx as [Hx|Hx]; [discriminate|]); destruct Hx|]); apply NoDup_nil|]. split; [vm_compute; reflexivity|].
  let v := eval vm_compute in (map_ops rt_env 10 (dr_p, dr_dict, []) xa_dops (dr_start (OMap dr_p dr_dict []))) in match v with (Ok (?rs, (?q, ?s, ?u)), ?w) => exists rs, q, s, u, w end.
  repeat split; vm_compute; reflexivity.
Qed.
Print Assumptions C72_list_files_counted.
Print Assumptions C72_dict_files_counted.
Print Assumptions C72_list_apart.
Print Assumptions C72_dict_apart.
