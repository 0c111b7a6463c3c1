(** C37-C39, C42: model lists and dicts as lists and dicts. *)
From Coq Require Import List Ascii String Bool Arith ZArith Lia Permutation.
From Verif Require Import Base PosixModel FsModel PathModel SerialModel StoreModel ContainerModel StoreExample StoreRecord FsProof TargetProof.
Import ListNotations.
Local Arguments str_eq_dec : simpl never.

(** ** Specification *)
(** A value a user puts into a container: no record, and nothing of the machinery for loading. *)
Definition plain (v : obj) : Prop := match v with ORec _ _ _ _ _ | OUnloaded _ _ _ _ => False | _ => True end.
(** What a user sees of an item. *)
Definition seen (o : obj) : obj := match o with ORec c _ _ _ _ => c | _ => o end.
(** An item with its content in memory. *)
Definition in_memory (o : obj) : Prop := plain (seen o).

(** Python lists: which position an index means. *)
Inductive index_of {A} (l : list A) : Z -> nat -> Prop :=
| IdxPos k : k < List.length l -> index_of l (Z.of_nat k) k
| IdxNeg k : k < List.length l -> index_of l (Z.of_nat k - Z.of_nat (List.length l))%Z k.
(** Where [insert] puts an item. *)
Inductive insert_at {A} (l : list A) : Z -> nat -> Prop :=
| InsPos k : k <= List.length l -> insert_at l (Z.of_nat k) k
| InsBig i : (i > Z.of_nat (List.length l))%Z -> insert_at l i (List.length l)
| InsNeg k : k < List.length l -> insert_at l (Z.of_nat k - Z.of_nat (List.length l))%Z k
| InsLow i : (i < - Z.of_nat (List.length l))%Z -> insert_at l i 0.
(** A list method: the result and the list afterwards. *)
Inductive list_step : list obj -> sop -> res obj -> list obj -> Prop :=
| PGet l i k v : index_of l i k -> nth_error l k = Some v -> list_step l (LGet i) (Ok v) l
| PGetE l i : (forall k, ~ index_of l i k) -> list_step l (LGet i) (Exn IndexError) l
| PSet a x b i v : index_of (a ++ x :: b) i (List.length a) -> list_step (a ++ x :: b) (LSet i v) (Ok (OAtom ANone)) (a ++ v :: b)
| PSetE l i v : (forall k, ~ index_of l i k) -> list_step l (LSet i v) (Exn IndexError) l
| PIns a b i v : insert_at (a ++ b) i (List.length a) -> list_step (a ++ b) (LInsert i v) (Ok (OAtom ANone)) (a ++ v :: b)
| PDel a x b i : index_of (a ++ x :: b) i (List.length a) -> list_step (a ++ x :: b) (LDel i) (Ok (OAtom ANone)) (a ++ b)
| PDelE l i : (forall k, ~ index_of l i k) -> list_step l (LDel i) (Exn IndexError) l
| PApp l v : list_step l (LAppend v) (Ok (OAtom ANone)) (l ++ [v])
| PExt l vs : list_step l (LExtend vs) (Ok (OAtom ANone)) (l ++ vs)
| PPop a x b i : index_of (a ++ x :: b) i (List.length a) -> list_step (a ++ x :: b) (LPop i) (Ok x) (a ++ b)
| PPopE l i : (forall k, ~ index_of l i k) -> list_step l (LPop i) (Exn IndexError) l
| PLen l : list_step l LLen (Ok (OAtom (AInt (Z.of_nat (List.length l))))) l
| PIter l : list_step l LIter (Ok (OList l)) l
| PClear l : list_step l LClear (Ok (OAtom ANone)) [].
Inductive list_steps : list obj -> list sop -> list (res obj) -> list obj -> Prop :=
| PNil l : list_steps l [] [] l
| PCons l o r l1 ops rs l2 : list_step l o r l1 -> list_steps l1 ops rs l2 -> list_steps l (o :: ops) (r :: rs) l2.
Definition sop_values (o : sop) : list obj :=
  match o with LSet _ v | LInsert _ v | LAppend v => [v] | LExtend vs => vs | _ => [] end.

(** ** Lists *)
Lemma list_pos_some {A} i (l : list A) k : list_pos i (List.length l) = Some k -> index_of l i k.
Proof.
  unfold list_pos. destruct (Z.ltb_spec i 0) as [Hi|Hi].
  - destruct (Z.leb_spec 0 (i + Z.of_nat (List.length l))%Z) as [H1|]; [|discriminate].
    destruct (Z.ltb_spec (i + Z.of_nat (List.length l)) (Z.of_nat (List.length l)))%Z as [H2|]; [|discriminate]. cbn. intros E. injection E as <-.
    replace i with (Z.of_nat (Z.to_nat (i + Z.of_nat (List.length l))) - Z.of_nat (List.length l))%Z at 1 by lia. constructor. lia.
  - destruct (Z.leb_spec 0 i) as [H1|]; [|discriminate]. destruct (Z.ltb_spec i (Z.of_nat (List.length l)))%Z as [H2|]; [|discriminate]. cbn. intros E. injection E as <-.
    replace i with (Z.of_nat (Z.to_nat i)) at 1 by lia. constructor. lia.
Qed.
Lemma list_pos_none {A} i (l : list A) : list_pos i (List.length l) = None -> forall k, ~ index_of l i k.
Proof.
  intros H k Hk. revert H. unfold list_pos. inversion Hk as [j Hj|j Hj]; subst.
  - destruct (Z.ltb_spec (Z.of_nat k) 0)%Z; [lia|]. destruct (Z.leb_spec 0 (Z.of_nat k))%Z; [|lia]. destruct (Z.ltb_spec (Z.of_nat k) (Z.of_nat (List.length l)))%Z; [discriminate|lia].
  - destruct (Z.ltb_spec (Z.of_nat k - Z.of_nat (List.length l)) 0)%Z; [|lia].
    destruct (Z.leb_spec 0 (Z.of_nat k - Z.of_nat (List.length l) + Z.of_nat (List.length l)))%Z; [|lia].
    destruct (Z.ltb_spec (Z.of_nat k - Z.of_nat (List.length l) + Z.of_nat (List.length l)) (Z.of_nat (List.length l)))%Z; [discriminate|lia].
Qed.
Lemma index_lt {A} (l : list A) i k : index_of l i k -> k < List.length l. Proof. inversion 1; assumption. Qed.
Lemma insert_pos_at {A} i (l : list A) : insert_at l i (insert_pos i (List.length l)).
Proof.
  unfold insert_pos. set (N := Z.of_nat (List.length l)). destruct (Z.ltb_spec i 0) as [Hi|Hi].
  - destruct (Z.lt_ge_cases i (- N)) as [H|H].
    + replace (Nat.min _ _) with 0 by lia. apply InsLow. exact H.
    + replace (Nat.min _ _) with (Z.to_nat (i + N)) by lia. replace i with (Z.of_nat (Z.to_nat (i + N)) - N)%Z at 1 by lia. apply InsNeg. lia.
  - destruct (Z.lt_ge_cases N i) as [H|H].
    + replace (Nat.min _ _) with (List.length l) by lia. apply InsBig. lia.
    + replace (Nat.min _ _) with (Z.to_nat i) by lia. replace i with (Z.of_nat (Z.to_nat i)) at 1 by lia. apply InsPos. lia.
Qed.
Lemma insert_at_le {A} (l : list A) i k : insert_at l i k -> k <= List.length l. Proof. inversion 1; subst; lia. Qed.

Lemma split_at {A} (l : list A) k : k < List.length l -> exists a x b, l = a ++ x :: b /\ List.length a = k.
Proof.
  revert k. induction l as [|y l IH]; intros k H; [cbn in H; lia|]. destruct k as [|k]; [exists [], y, l; auto|].
  destruct (IH k) as (a & x & b & -> & <-); [cbn in H; lia|]. exists (y :: a), x, b. auto.
Qed.
Lemma set_nth_app {A} (a : list A) x y b : set_nth (List.length a) y (a ++ x :: b) = a ++ y :: b.
Proof. induction a as [|z a IH]; [reflexivity|]. cbn. rewrite IH. reflexivity. Qed.
Lemma nth_error_mid {A} (a : list A) x b : nth_error (a ++ x :: b) (List.length a) = Some x.
Proof. induction a as [|z a IH]; [reflexivity|]. exact IH. Qed.
Lemma remove_nth_app {A} (a : list A) x b : remove_nth (List.length a) (a ++ x :: b) = a ++ b.
Proof.
  unfold remove_nth. rewrite firstn_app, Nat.sub_diag, firstn_all. cbn [firstn]. rewrite app_nil_r.
  replace (S (List.length a)) with (List.length a + 1) by lia. rewrite skipn_app, skipn_all2 by lia. replace (List.length a + 1 - List.length a) with 1 by lia. reflexivity.
Qed.
Lemma index_map {A B} (f : A -> B) l i k : index_of l i k <-> index_of (map f l) i k.
Proof.
  split; intros H; inversion H; subst.
  - apply IdxPos. rewrite map_length. assumption.
  - rewrite <- (map_length f l). apply IdxNeg. rewrite map_length. assumption.
  - rewrite map_length in *. apply IdxPos. assumption.
  - rewrite map_length in *. apply IdxNeg. assumption.
Qed.

Lemma insert_map {A B} (f : A -> B) l i k : insert_at l i k -> insert_at (map f l) i k.
Proof.
  intros H. inversion H; subst.
  - apply InsPos. rewrite map_length. assumption.
  - rewrite <- (map_length f l). apply InsBig. rewrite map_length. assumption.
  - rewrite <- (map_length f l). apply InsNeg. rewrite map_length. assumption.
  - apply InsLow. rewrite map_length. assumption.
Qed.

Section Lists.
Variables (E : senv) (n : nat).

Lemma content_memory o w : in_memory o -> content_of E n o w = (Ok (seen o, o), w).
Proof.
  unfold content_of, in_memory. destruct o as [| | | | | | |c t pre we re| | |]; cbn [seen]; try reflexivity.
  intros H. destruct c; cbn in H; try destruct H; reflexivity.
Qed.
Lemma storable_seen o : is_storable E o = true -> plain o -> seen o = o.
Proof. destruct o; cbn; intros; (reflexivity || contradiction). Qed.
Lemma over_memory old v w : in_memory old -> plain v ->
  exists v1 more, over E n old v w = (Ok (v1, more), w) /\ seen v1 = v /\ in_memory v1 /\ (v1 = v \/ is_storable E v1 = false).
Proof.
  intros Ho Hv. assert (Hs : seen v = v) by (destruct v; cbn in *; (reflexivity || contradiction)).
  assert (Hm : in_memory v) by (unfold in_memory; rewrite Hs; exact Hv).
  unfold over. destruct old as [| | | | | | |c t pre we re| | |]; try (eexists _, _; split; [reflexivity|auto]; fail).
  destruct (is_storable E v) eqn:Es; [|eexists _, _; split; [reflexivity|auto]].
  destruct (s_clean E).
  - unfold mbind. rewrite (content_memory (ORec c t pre we re) w Ho). eexists (ORec v t pre we re), _. split; [reflexivity|].
    cbn. split; [reflexivity|]. split; [exact Hv|]. right. reflexivity.
  - eexists (ORec v t pre we re), _. split; [reflexivity|]. split; [reflexivity|]. split; [exact Hv|]. right. reflexivity.
Qed.
Lemma wrap_memory q v : in_memory v -> in_memory (snd (seq_wrap E q v)) /\ seen (snd (seq_wrap E q v)) = seen v.
Proof.
  intros H. unfold seq_wrap. destruct (is_storable E v) eqn:Es; [|auto].
  assert (Hs : seen v = v). { destruct v; cbn in *; try reflexivity. discriminate. }
  unfold seq_make_record. destruct (q_runs q) as [[[stem k] ss]|]; cbn; unfold in_memory in *; cbn; rewrite Hs in *; auto.
Qed.
(** The rest of an assignment. *)
Lemma over_wrap q old v w : in_memory old -> plain v -> exists v1 more q' v2,
  over E n old v w = (Ok (v1, more), w) /\ seq_wrap E q v1 = (q', v2) /\ seen v2 = v /\ in_memory v2.
Proof.
  intros Ho Hv. destruct (over_memory old v w Ho Hv) as (v1 & more & H1 & H2 & H3 & _).
  destruct (wrap_memory q v1 H3) as [H4 H5]. exists v1, more. destruct (seq_wrap E q v1) as [q' v2]. exists q', v2. cbn in *. split; [exact H1|]. split; [reflexivity|]. split; [congruence|exact H4].
Qed.
Lemma plain_memory v : plain v -> in_memory v /\ seen v = v.
Proof. destruct v; cbn; intros H; (split; [exact H|reflexivity]) || destruct H. Qed.

Definition good (st : seqst) : Prop := Forall in_memory (snd (fst st)).
Definition shown (st : seqst) : list obj := map seen (snd (fst st)).


Lemma get_step q s u i w : Forall in_memory s ->
  exists r, seq_get E n (q, s, u) i w = (Ok (r, (q, s, u)), w) /\ list_step (map seen s) (LGet i) r (map seen s).
Proof.
  intros Hs. unfold seq_get. destruct (list_pos i (List.length s)) as [k|] eqn:Ek.
  - apply list_pos_some in Ek. destruct (split_at s k (index_lt _ _ _ Ek)) as (a & x & b & -> & <-). rewrite nth_error_mid.
    apply Forall_app in Hs as [Ha Hb]. inversion Hb as [|? ? Hx Hb']; subst. unfold mbind. rewrite content_memory by exact Hx. cbn [fst snd].
    rewrite set_nth_app. eexists. split; [reflexivity|]. apply PGet with (k := List.length a).
    + apply index_map. exact Ek.
    + rewrite map_app. cbn. rewrite <- (map_length seen a). apply nth_error_mid.
  - eexists. split; [reflexivity|]. apply PGetE. intros k Hk. apply index_map in Hk. exact (list_pos_none _ _ Ek k Hk).
Qed.
Lemma set_step q s u i v w : Forall in_memory s -> plain v ->
  exists r st, seq_set E n (q, s, u) i v w = (Ok (r, st), w) /\ good st /\ list_step (map seen s) (LSet i v) r (shown st).
Proof.
  intros Hs Hv. unfold seq_set. destruct (Z.ltb_spec i (Z.of_nat (List.length s))) as [Hi|Hi].
  - destruct (list_pos i (List.length s)) as [k|] eqn:Ek.
    + apply list_pos_some in Ek. destruct (split_at s k (index_lt _ _ _ Ek)) as (a & x & b & -> & <-). rewrite nth_error_mid.
      apply Forall_app in Hs as [Ha Hb]. inversion Hb as [|? ? Hx Hb']; subst.
      destruct (over_wrap q x v w Hx Hv) as (v1 & more & q' & v2 & H1 & H2 & H3 & H4). unfold mbind. rewrite H1, H2. rewrite set_nth_app.
      eexists _, _. split; [reflexivity|]. split; [apply Forall_app; split; [exact Ha|constructor; assumption]|].
      unfold shown. cbn [fst snd]. rewrite !map_app. cbn [map]. rewrite H3. apply PSet. rewrite map_length.
      apply (index_map seen) in Ek. rewrite map_app in Ek. exact Ek.
    + eexists _, _. split; [reflexivity|]. split; [exact Hs|]. apply PSetE. intros k Hk. apply index_map in Hk. exact (list_pos_none _ _ Ek k Hk).
  - destruct (seq_wrap E q v) as [q' v']. eexists _, _. split; [reflexivity|]. split; [exact Hs|]. apply PSetE. intros k Hk. apply index_map in Hk.
    cbn [fst snd] in Hk. inversion Hk as [j Hj|j Hj]; subst; lia.
Qed.
Lemma insert_step q s u i v w : Forall in_memory s -> plain v ->
  exists st a b, seq_insert E (q, s, u) i v w = (Ok (Ok (OAtom ANone), st), w) /\ good st /\
    map seen s = a ++ b /\ insert_at (map seen s) i (List.length a) /\ shown st = a ++ v :: b.
Proof.
  intros Hs Hv. unfold seq_insert. destruct (plain_memory v Hv) as [Hm Hsv]. destruct (wrap_memory q v Hm) as [H1 H2].
  destruct (seq_wrap E q v) as [q' v']. cbn [snd] in H1, H2. set (k := insert_pos i (List.length s)).
  pose proof (insert_pos_at i s) as Hk. fold k in Hk.
  exists (q', insert_nth k v' s, u), (map seen (firstn k s)), (map seen (skipn k s)). split; [reflexivity|]. split.
  - unfold good. cbn [fst snd]. unfold insert_nth. apply Forall_app. rewrite <- (firstn_skipn k s) in Hs. apply Forall_app in Hs as [Ha Hb]. auto.
  - split; [rewrite <- map_app, firstn_skipn; reflexivity|]. split.
    + rewrite map_length, firstn_length_le by (apply (insert_at_le _ _ _ Hk)). apply insert_map. exact Hk.
    + unfold shown, insert_nth. cbn [fst snd]. rewrite map_app. cbn. rewrite H2, Hsv. reflexivity.
Qed.
Lemma del_step q s u i w : Forall in_memory s ->
  exists r st, seq_del E (q, s, u) i w = (Ok (r, st), w) /\ good st /\ fst (fst st) = q /\
    ((exists a x b, s = a ++ x :: b /\ index_of s i (List.length a) /\ r = Ok (OAtom ANone) /\ snd (fst st) = a ++ b) \/
     ((forall k, ~ index_of s i k) /\ r = Exn IndexError /\ snd (fst st) = s)).
Proof.
  intros Hs. unfold seq_del. destruct (list_pos i (List.length s)) as [k|] eqn:Ek.
  - apply list_pos_some in Ek. destruct (split_at s k (index_lt _ _ _ Ek)) as (a & x & b & -> & <-). rewrite remove_nth_app.
    eexists _, _. split; [reflexivity|]. apply Forall_app in Hs as [Ha Hb]. inversion Hb; subst. split; [apply Forall_app; split; assumption|]. split; [reflexivity|].
    left. exists a, x, b. auto.
  - eexists _, _. split; [reflexivity|]. split; [exact Hs|]. split; [reflexivity|]. right. split; [apply list_pos_none; exact Ek|auto].
Qed.
Lemma del_last_all k : forall st w, good st -> List.length (snd (fst st)) = k ->
  exists st', del_last E k st w = (Ok st', w) /\ snd (fst st') = [] /\ fst (fst st') = fst (fst st).
Proof.
  induction k as [|k IH]; intros [[q s] u] w Hg Hl; cbn [fst snd] in *.
  - exists (q, s, u). destruct s; [auto|discriminate].
  - cbn [del_last]. unfold mbind. destruct (del_step q s u (Z.of_nat k) w Hg) as (r & st & H1 & H2 & H3 & H4). rewrite H1. cbn [snd].
    assert (Hk : index_of s (Z.of_nat k) k) by (apply IdxPos; lia).
    destruct H4 as [(a & x & b & -> & Hi & -> & H4)|(Hn & _)]; [|exfalso; exact (Hn k Hk)].
    assert (Hla : List.length a = k) by (inversion Hi; subst; rewrite ?app_length in *; cbn in *; lia).
    destruct (IH st w H2) as (st' & H5 & H6 & H7); [rewrite H4; rewrite app_length in *; cbn in Hl; lia|]. exists st'. rewrite H5. split; [reflexivity|]. split; [exact H6|congruence].
Qed.
Lemma extend_step vs : Forall plain vs -> forall q s u w, Forall in_memory s ->
  exists st, seq_extend E (q, s, u) vs w = (Ok (Ok (OAtom ANone), st), w) /\ good st /\ shown st = map seen s ++ vs.
Proof.
  induction 1 as [|v vs Hv Hvs IH]; intros q s u w Hs.
  - exists (q, s, u). split; [reflexivity|]. split; [exact Hs|]. unfold shown. cbn. rewrite app_nil_r. reflexivity.
  - cbn [seq_extend]. unfold mbind. destruct (insert_step q s u (Z.of_nat (List.length s)) v w Hs Hv) as (st & a & b & H1 & H2 & H3 & H4 & H5).
    cbn [fst snd]. rewrite H1. destruct st as [[q1 s1] u1]. cbn [snd].
    destruct (IH q1 s1 u1 w H2) as (st' & H6 & H7 & H8). exists st'. split; [exact H6|]. split; [exact H7|].
    rewrite H8. unfold shown in H5. cbn [fst snd] in H5. rewrite H5, H3.
    assert (Hb : b = []).
    { rewrite <- (map_length seen s) in H4. rewrite H3 in H4. apply length_zero_iff_nil. inversion H4; subst; rewrite app_length in *; cbn in *; lia. }
    subst b. rewrite <- !app_assoc. reflexivity.
Qed.
Lemma iter_step s w : Forall in_memory s -> mapM (content_of E n) s w = (Ok (map (fun o => (seen o, o)) s), w).
Proof.
  induction 1 as [|o s Ho Hs IH]; [reflexivity|]. cbn [mapM]. unfold mbind at 1. rewrite content_memory by exact Ho. unfold mbind. rewrite IH. reflexivity.
Qed.
Lemma op_step st o w : good st -> Forall plain (sop_values o) ->
  exists r st', seq_op E n st o w = (Ok (r, st'), w) /\ good st' /\ list_step (shown st) o r (shown st').
Proof.
  destruct st as [[q s] u]. unfold good, shown. cbn [fst snd]. intros Hs Hv. destruct o as [i|i v|i v|i|v|vs|i| | |]; cbn [seq_op sop_values] in *.
  - destruct (get_step q s u i w Hs) as (r & H1 & H2). exists r, (q, s, u). auto.
  - inversion Hv; subst. destruct (set_step q s u i v w Hs) as (r & st & H4 & H5 & H6); [assumption|]. exists r, st. auto.
  - inversion Hv; subst. destruct (insert_step q s u i v w Hs) as (st & a & b & H4 & H5 & H6 & H7 & H8); [assumption|].
    exists (Ok (OAtom ANone)), st. split; [exact H4|]. split; [exact H5|]. rewrite H6. unfold shown in H8. rewrite H8. apply PIns. rewrite <- H6. exact H7.
  - destruct (del_step q s u i w Hs) as (r & st & H1 & H2 & _ & H3). exists r, st. split; [exact H1|]. split; [exact H2|].
    destruct H3 as [(a & x & b & -> & Hi & -> & H3)|(Hn & -> & H3)]; rewrite H3.
    + rewrite !map_app. cbn [map]. apply PDel. rewrite map_length. apply (index_map seen) in Hi. rewrite map_app in Hi. exact Hi.
    + apply PDelE. intros k Hk. apply index_map in Hk. exact (Hn k Hk).
  - inversion Hv; subst. destruct (insert_step q s u (Z.of_nat (List.length s)) v w Hs) as (st & a & b & H4 & H5 & H6 & H7 & H8); [assumption|].
    exists (Ok (OAtom ANone)), st. cbn [fst snd]. split; [exact H4|]. split; [exact H5|]. unfold shown in H8. rewrite H8, H6.
    assert (Hb : b = []).
    { rewrite <- (map_length seen s), H6 in H7. apply length_zero_iff_nil. inversion H7; subst; rewrite app_length in *; cbn in *; lia. }
    subst b. rewrite app_nil_r. apply PApp.
  - destruct (extend_step vs Hv q s u w Hs) as (st & H1 & H2 & H3). exists (Ok (OAtom ANone)), st. split; [exact H1|]. split; [exact H2|].
    unfold shown in H3. rewrite H3. apply PExt.
  - unfold mbind at 1. destruct (get_step q s u i w Hs) as (r & H1 & H2). rewrite H1.
    destruct (del_step q s u i w Hs) as (r2 & st & H3 & H4 & _ & H5).
    destruct r as [v|e].
    + unfold mbind. rewrite H3. exists (match r2 with Ok _ => Ok v | Exn e => Exn e end), st. split; [reflexivity|]. split; [exact H4|].
      destruct H5 as [(a & x & b & -> & Hi & -> & H5)|(Hn & -> & H5)]; rewrite H5.
      * rewrite !map_app. cbn [map]. apply (index_map seen) in Hi. rewrite map_app in Hi. cbn [map] in Hi.
        assert (v = seen x).
        { inversion H2 as [? ? k v' Hk Hnth| | | | | | | | | | | | |]; subst.
          assert (k = List.length a).
          { apply index_map in Hk. pose proof (index_lt _ _ _ Hk) as Hlt. rewrite map_app in *. cbn [map] in *.
            pose proof (index_lt _ _ _ Hi) as Hlt2. clear -Hk Hi Hlt Hlt2. apply (index_map seen) in Hk. rewrite map_app in Hk. cbn [map] in Hk.
            inversion Hk; inversion Hi; subst; rewrite ?app_length, ?map_length in *; cbn [List.length] in *; rewrite ?map_length in *; lia. }
          subst k. rewrite map_app in Hnth. cbn [map] in Hnth. rewrite <- (map_length seen a), nth_error_mid in Hnth. congruence. }
        subst v. apply PPop. rewrite map_length. exact Hi.
      * exfalso. inversion H2; subst. match goal with H : index_of _ _ _ |- _ => apply index_map in H; exact (Hn _ H) end.
    + exists (Exn e), (q, s, u). split; [reflexivity|]. split; [exact Hs|]. inversion H2; subst. apply PPopE. assumption.
  - eexists _, (q, s, u). split; [reflexivity|]. split; [exact Hs|]. cbn [fst snd]. rewrite <- (map_length seen s). apply PLen.
  - unfold mbind. rewrite iter_step by exact Hs. eexists _, _. split; [reflexivity|]. cbn [fst snd]. rewrite !map_map. cbn [fst snd]. rewrite map_id.
    split; [exact Hs|]. replace (map (fun x => seen x) s) with (map seen s) by reflexivity. apply PIter.
  - unfold seq_clear, mbind. destruct (del_last_all (List.length s) (q, s, u) w Hs eq_refl) as ([[q' s'] u'] & H1 & H2 & H3). rewrite H1.
    eexists _, _. split; [reflexivity|]. cbn [fst snd] in *. subst s'. split; [constructor|]. apply PClear.
Qed.
Lemma ops_steps ops : forall st w, good st -> Forall (fun o => Forall plain (sop_values o)) ops ->
  exists rs st', seq_ops E n st ops w = (Ok (rs, st'), w) /\ good st' /\ list_steps (shown st) ops rs (shown st').
Proof.
  induction ops as [|o ops IH]; intros st w Hg Hv.
  - exists [], st. split; [reflexivity|]. split; [exact Hg|constructor].
  - inversion Hv; subst. destruct (op_step st o w Hg) as (r & st1 & H3 & H4 & H5); [assumption|].
    destruct (IH st1 w H4) as (rs & st2 & H6 & H7 & H8); [assumption|].
    exists (r :: rs), st2. cbn [seq_ops]. unfold mbind at 1. rewrite H3. cbn [snd fst]. unfold mbind. rewrite H6. split; [reflexivity|]. split; [exact H7|]. econstructor; eassumption.
Qed.
End Lists.

(** ** C37 *)
(** Any sequence of list methods on a list whose items are in memory gives the results, the errors and the content a
    Python list gives, and touches no file. *)
Theorem C37_like_a_list : forall E n q items unused ops w,
  Forall in_memory items -> Forall (fun o => Forall plain (sop_values o)) ops ->
  exists results q' items' unused',
    seq_ops E n (q, items, unused) ops w = (Ok (results, (q', items', unused')), w) /\
    list_steps (map seen items) ops results (map seen items') /\ Forall in_memory items'.
Proof.
  intros E n q items unused ops w Hi Hv. destruct (ops_steps E n ops (q, items, unused) w Hi Hv) as (rs & [[q' s'] u'] & H1 & H2 & H3).
  exists rs, q', s', u'. auto.
Qed.
(** What the list was made with: storable or not, sub directory, preload, and for runs the stem and store_subdir. *)
Definition options (q : seqcfg) := (q_sto q, q_sub q, q_pre q, option_map (fun r => (fst (fst r), snd r)) (q_runs q)).
Lemma wrap_options E q v : options (fst (seq_wrap E q v)) = options q.
Proof. unfold seq_wrap, seq_make_record. destruct (is_storable E v); [|reflexivity]. destruct q as [a b c [[[stem m] ss]|]]; reflexivity. Qed.
Lemma insert_options E st i v w r st' w' : seq_insert E st i v w = (Ok (r, st'), w') -> options (fst (fst st')) = options (fst (fst st)).
Proof.
  destruct st as [[q s] u]. unfold seq_insert. pose proof (wrap_options E q v) as H. destruct (seq_wrap E q v) as [q' v']. unfold ret. intros H0. inversion H0; subst. exact H.
Qed.
Lemma extend_options E vs : forall st w r st' w', seq_extend E st vs w = (Ok (r, st'), w') -> options (fst (fst st')) = options (fst (fst st)).
Proof.
  induction vs as [|v vs IH]; intros st w r st' w' H; cbn [seq_extend] in H.
  - unfold ret in H. inversion H; subst. reflexivity.
  - apply mbind_ok in H as ([r1 st1] & w1 & H1 & H). rewrite (IH _ _ _ _ _ H). exact (insert_options E st _ v w r1 st1 w1 H1).
Qed.
Lemma del_options E st i w r st' w' : seq_del E st i w = (Ok (r, st'), w') -> options (fst (fst st')) = options (fst (fst st)).
Proof. destruct st as [[q s] u]. unfold seq_del. destruct (list_pos i _); unfold ret; intros H; inversion H; subst; reflexivity. Qed.
Lemma get_options E n st i w r st' w' : seq_get E n st i w = (Ok (r, st'), w') -> options (fst (fst st')) = options (fst (fst st)).
Proof.
  destruct st as [[q s] u]. unfold seq_get. destruct (list_pos i _) as [k|]; [|unfold ret; intros H; inversion H; subst; reflexivity].
  destruct (nth_error s k) as [o|]; [|unfold ret; intros H; inversion H; subst; reflexivity].
  intros H. apply mbind_ok in H as (x & w1 & H1 & H). unfold ret in H. inversion H; subst. reflexivity.
Qed.
Lemma del_last_options E k : forall st w st' w', del_last E k st w = (Ok st', w') -> options (fst (fst st')) = options (fst (fst st)).
Proof.
  induction k as [|k IH]; intros st w st' w' H; cbn [del_last] in H.
  - unfold ret in H. inversion H; subst. reflexivity.
  - apply mbind_ok in H as ([r1 st1] & w1 & H1 & H). rewrite (IH _ _ _ _ H). exact (del_options E st _ w r1 st1 w1 H1).
Qed.
Lemma op_options E n st o w r st' w' : seq_op E n st o w = (Ok (r, st'), w') -> options (fst (fst st')) = options (fst (fst st)).
Proof.
  destruct o as [i|i v|i v|i|v|vs|i| | |]; cbn [seq_op].
  - apply get_options.
  - destruct st as [[q s] u]. unfold seq_set. destruct (i <? _)%Z.
    + destruct (list_pos i _) as [k|]; [|unfold ret; intros H; inversion H; subst; reflexivity].
      destruct (nth_error s k) as [old|]; [|unfold ret; intros H; inversion H; subst; reflexivity].
      intros H. apply mbind_ok in H as ([v1 more] & w1 & H1 & H). pose proof (wrap_options E q v1) as Hw. destruct (seq_wrap E q v1) as [q' v2]. unfold ret in H. inversion H; subst. exact Hw.
    + intros H. first [exact (insert_options E (q, s, u) _ v w r st' w' H) | (pose proof (wrap_options E q v) as Hw; destruct (seq_wrap E q v) as [q' v2]; unfold ret in H; inversion H; subst; exact Hw) | (unfold ret in H; inversion H; subst; reflexivity)].
  - apply insert_options.
  - apply del_options.
  - apply insert_options.
  - apply extend_options.
  - intros H. apply mbind_ok in H as ([[x|e] st1] & w1 & H1 & H).
    + apply mbind_ok in H as ([y st2] & w2 & H2 & H). unfold ret in H. injection H as <- <- <-. cbn [snd]. rewrite (del_options E st1 i w1 y st2 w2 H2). exact (get_options E n st i w _ st1 w1 H1).
    + unfold ret in H. injection H as <- <- <-. exact (get_options E n st i w _ st1 w1 H1).
  - intros H. unfold ret in H. inversion H; subst. reflexivity.
  - destruct st as [[q s] u]. intros H. first [unfold ret in H; inversion H; subst; reflexivity | (apply mbind_ok in H as (x & w1 & H1 & H); unfold ret in H; inversion H; subst; reflexivity)].
  - destruct st as [[q s] u]. unfold seq_clear. intros H. apply mbind_ok in H as ([[q1 s1] u1] & w1 & H1 & H). unfold ret in H. inversion H; subst.
    cbn [fst]. pose proof (del_last_options E _ _ _ _ _ H1) as Ho. cbn [fst] in Ho. rewrite <- Ho. destruct q1 as [a b c [[[stem m] ss]|]]; reflexivity.
Qed.
(** No method changes what the list was made with. *)
Theorem C37_options_kept : forall E n ops st w results st' w',
  seq_ops E n st ops w = (Ok (results, st'), w') -> options (fst (fst st')) = options (fst (fst st)).
Proof.
  intros E n ops. induction ops as [|o ops IH]; intros st w rs st' w' H; cbn [seq_ops] in H.
  - unfold ret in H. inversion H; subst. reflexivity.
  - apply mbind_ok in H as ([r1 st1] & w1 & H1 & H). apply mbind_ok in H as ([rs2 st2] & w2 & H2 & H). unfold ret in H. injection H as <- <- <-. cbn [snd].
    cbn [snd] in H2. rewrite (IH _ _ _ _ _ H2). exact (op_options E n st o w r1 st1 w1 H1).
Qed.
Definition ex_items : list obj := [OAtom (AInt 1); ORec (OLeaf 0 ($"a")) (auto_target []) false None None; OAtom (AInt 3)].
Example C37_example :
  let ops := [LSet (-2) (OLeaf 0 ($"b")); LGet 1; LPop 0; LInsert (-100) (OAtom (AInt 9)); LGet 7; LLen] in
  Forall in_memory ex_items /\ Forall (fun o => Forall plain (sop_values o)) ops /\
  forall w, exists st, seq_ops (ex_env "auto" false None) 3 (mkSeq false [] false None, ex_items, []) ops w =
    (Ok ([Ok (OAtom ANone); Ok (OLeaf 0 ($"b")); Ok (OAtom (AInt 1)); Ok (OAtom ANone); Exn IndexError; Ok (OAtom (AInt 3))], st), w).
Proof.
  split; [|split].
  - unfold ex_items. repeat apply Forall_cons; try exact I. apply Forall_nil.
  - repeat (apply Forall_cons; [cbn; repeat (apply Forall_cons; [exact I|]); apply Forall_nil|]). apply Forall_nil.
  - intros w. eexists. vm_compute. reflexivity.
Qed.

Example C37_options_example :
  let ops := [LAppend (OLeaf 0 ($"b")); LClear; LAppend (OLeaf 0 ($"c"))] in
  forall w, exists u, seq_ops (ex_env "auto" false None) 3 (mkSeq false ($"sub") true (Some ($"run", 0%N, false)), ex_items, []) ops w =
    (Ok ([Ok (OAtom ANone); Ok (OAtom ANone); Ok (OAtom ANone)],
         (mkSeq false ($"sub") true (Some ($"run", 1%N, false)), [ORec (OLeaf 0 ($"c")) (mkTarget (Some ($"sub")) (Some ($"run-0")) None) true None None], u)), w).
Proof. intros ops w. eexists. vm_compute. reflexivity. Qed.

(** ** Specification of dicts *)
(** A dict method; [moves]: whether assigning an existing key moves it to the end, which Python's dict does not do. *)
Inductive dict_step (moves : bool) : list (str * obj) -> dop -> res obj -> list (str * obj) -> Prop :=
| QGet d k v : In (k, v) d -> dict_step moves d (DGet k) (Ok v) d
| QGetE d k : ~ In k (map fst d) -> dict_step moves d (DGet k) (Exn KeyError) d
| QSetNew d k v : ~ In k (map fst d) -> dict_step moves d (DSet k v) (Ok (OAtom ANone)) (d ++ [(k, v)])
| QSetOld a k x b v : dict_step moves (a ++ (k, x) :: b) (DSet k v) (Ok (OAtom ANone)) (if moves then a ++ b ++ [(k, v)] else a ++ (k, v) :: b)
| QDel a k x b : dict_step moves (a ++ (k, x) :: b) (DDel k) (Ok (OAtom ANone)) (a ++ b)
| QDelE d k : ~ In k (map fst d) -> dict_step moves d (DDel k) (Exn KeyError) d
| QPop a k x b : dict_step moves (a ++ (k, x) :: b) (DPop k) (Ok x) (a ++ b)
| QPopE d k : ~ In k (map fst d) -> dict_step moves d (DPop k) (Exn KeyError) d
| QLen d : dict_step moves d DLen (Ok (OAtom (AInt (Z.of_nat (List.length d))))) d
| QKeys d : dict_step moves d DKeys (Ok (OList (map (fun kv => OAtom (AStr (fst kv))) d))) d
| QClear d : dict_step moves d DClear (Ok (OAtom ANone)) [].
Inductive dict_steps (moves : bool) : list (str * obj) -> list dop -> list (res obj) -> list (str * obj) -> Prop :=
| QNil d : dict_steps moves d [] [] d
| QCons d o r d1 ops rs d2 : dict_step moves d o r d1 -> dict_steps moves d1 ops rs d2 -> dict_steps moves d (o :: ops) (r :: rs) d2.
Definition dop_values (o : dop) : list obj := match o with DSet _ v => [v] | _ => [] end.
Definition seen_at (kv : str * obj) : str * obj := (fst kv, seen (snd kv)).
(** Equal results; of an iteration only up to the order. *)
Inductive same_result : dop -> res obj -> res obj -> Prop :=
| SameOrder l1 l2 : Permutation l1 l2 -> same_result DKeys (Ok (OList l1)) (Ok (OList l2))
| SameResult o r : o <> DKeys -> same_result o r r.

(** ** Dicts *)
Lemma assoc_split {A} k (v : A) l : assoc k l = Some v -> NoDup (map fst l) ->
  exists a b, l = a ++ (k, v) :: b /\ ~ In k (map fst a) /\ ~ In k (map fst b).
Proof.
  induction l as [|[x y] l IH]; cbn; [discriminate|]. intros H Hn. inversion Hn as [|? ? Hx Hn']; subst. destruct (str_eq_dec x k) as [->|Hne].
  - injection H as ->. exists [], l. auto.
  - destruct (IH H Hn') as (a & b & -> & Ha & Hb). exists ((x, y) :: a), b. split; [reflexivity|]. split; [|exact Hb]. cbn. intros [E|E]; [congruence|auto].
Qed.
Lemma del_notin {A} k (l : list (str * A)) : ~ In k (map fst l) -> assoc_del k l = l.
Proof. induction l as [|[x y] l IH]; cbn; [auto|]. intros H. destruct (str_eq_dec x k); [exfalso; auto|]. rewrite IH by auto. reflexivity. Qed.
Lemma del_app {A} k (a b : list (str * A)) : assoc_del k (a ++ b) = assoc_del k a ++ assoc_del k b.
Proof. induction a as [|[x y] a IH]; cbn; [reflexivity|]. rewrite IH. destruct (str_eq_dec x k); reflexivity. Qed.
Lemma del_split {A} k (v : A) a b : ~ In k (map fst a) -> ~ In k (map fst b) -> assoc_del k (a ++ (k, v) :: b) = a ++ b.
Proof. intros Ha Hb. rewrite del_app. cbn. destruct (str_eq_dec k k); [|congruence]. rewrite !del_notin by assumption. reflexivity. Qed.
Lemma set_split {A} k (v y : A) a b : ~ In k (map fst a) -> assoc_set k y (a ++ (k, v) :: b) = a ++ (k, y) :: b.
Proof.
  induction a as [|[x z] a IH]; cbn; intros H.
  - destruct (str_eq_dec k k); [reflexivity|congruence].
  - destruct (str_eq_dec x k); [exfalso; auto|]. rewrite IH by auto. reflexivity.
Qed.
Lemma keys_seen s : map fst (map seen_at s) = map fst s. Proof. rewrite map_map. reflexivity. Qed.
Lemma nodup_snoc {A} (a : list A) x : NoDup a -> ~ In x a -> NoDup (a ++ [x]).
Proof.
  induction a as [|y a IH]; intros H Hx; [repeat constructor; auto|]. inversion H; subst. cbn. constructor.
  - rewrite in_app_iff. cbn in *. intros [E|[E|[]]]; [auto|]. subst. apply Hx. auto.
  - apply IH; [assumption|]. intros E. apply Hx. right. exact E.
Qed.

Section Dicts.
Variables (E : senv) (n : nat).
Definition goodm (st : mapst) : Prop := NoDup (map fst (snd (fst st))) /\ Forall (fun kv => in_memory (snd kv)) (snd (fst st)).
Definition shownm (st : mapst) : list (str * obj) := map seen_at (snd (fst st)).

Lemma record_memory p k v : in_memory v -> let v' := if is_storable E v then map_make_record p k v else v in in_memory v' /\ seen v' = seen v.
Proof.
  intros H. destruct (is_storable E v) eqn:Es; [|auto].
  assert (Hs : seen v = v). { destruct v; cbn in *; try reflexivity. discriminate. }
  cbn. unfold map_make_record, in_memory in *. cbn. rewrite Hs in *. auto.
Qed.
Lemma mget_step p s u k w : goodm (p, s, u) ->
  exists r, map_get E n (p, s, u) k w = (Ok (r, (p, s, u)), w) /\
    ((exists o, assoc k s = Some o /\ r = Ok (seen o)) \/ (assoc k s = None /\ r = Exn KeyError)).
Proof.
  intros [Hn Hs]. cbn [fst snd] in *. unfold map_get. destruct (assoc k s) as [o|] eqn:Ek.
  - assert (Ho : in_memory o) by (rewrite Forall_forall in Hs; exact (Hs (k, o) (assoc_In _ _ _ Ek))).
    unfold mbind. rewrite content_memory by exact Ho. cbn [fst snd]. rewrite assoc_set_id by exact Ek. eexists. split; [reflexivity|]. left. exists o. auto.
  - eexists. split; [reflexivity|]. right. auto.
Qed.
Lemma good_mid p a k v b u : goodm (p, a ++ (k, v) :: b, u) ->
  ~ In k (map fst a) /\ ~ In k (map fst b) /\ in_memory v /\ forall u', goodm (p, a ++ b, u').
Proof.
  intros [Hn Hs]. cbn [fst snd] in *. rewrite map_app in Hn. cbn [map fst] in Hn. apply NoDup_remove in Hn as [H1 H2]. rewrite in_app_iff in H2.
  apply Forall_app in Hs as [Ha Hb]. inversion Hb; subst. split; [tauto|]. split; [tauto|]. split; [assumption|].
  intros u'. split; cbn [fst snd]; [rewrite map_app; exact H1|apply Forall_app; auto].
Qed.
Lemma mdel_step p s u k w : goodm (p, s, u) ->
  exists r st, map_del E (p, s, u) k w = (Ok (r, st), w) /\ goodm st /\
    ((exists a o b, s = a ++ (k, o) :: b /\ assoc k s = Some o /\ r = Ok (OAtom ANone) /\ snd (fst st) = a ++ b) \/
     (~ In k (map fst s) /\ r = Exn KeyError /\ st = (p, s, u))).
Proof.
  intros Hg. unfold map_del. destruct (assoc k s) as [o|] eqn:Ek.
  - destruct (assoc_split _ _ _ Ek (proj1 Hg)) as (a & b & -> & Ha & Hb). destruct (good_mid _ _ _ _ _ _ Hg) as (_ & _ & _ & H).
    rewrite del_split by assumption. eexists _, _. split; [reflexivity|]. split; [apply H|]. left. exists a, o, b. auto.
  - eexists _, _. split; [reflexivity|]. split; [exact Hg|]. right. apply assoc_None in Ek. auto.
Qed.
Lemma mset_step p s u k v w : goodm (p, s, u) -> plain v ->
  exists st, map_set E n (p, s, u) k v w = (Ok (Ok (OAtom ANone), st), w) /\ goodm st /\
    dict_step true (map seen_at s) (DSet k v) (Ok (OAtom ANone)) (shownm st).
Proof.
  intros Hg Hv. unfold map_set.
  assert (Hx : exists v1 more, match assoc k s with Some old => over E n old v | None => ret (v, []) end w = (Ok (v1, more), w) /\ seen v1 = v /\ in_memory v1).
  { destruct (assoc k s) as [o|] eqn:Ek.
    - assert (Ho : in_memory o) by (destruct Hg as [_ Hs]; rewrite Forall_forall in Hs; exact (Hs (k, o) (assoc_In _ _ _ Ek))).
      destruct (over_memory E n o v w Ho Hv) as (v1 & more & H1 & H2 & H3 & _). eauto 10.
    - destruct (plain_memory v Hv). exists v, []. auto. }
  destruct Hx as (v1 & more & H1 & H2 & H3). unfold mbind. rewrite H1. destruct (record_memory p k v1 H3) as [H4 H5]. set (v2 := if is_storable E v1 then _ else _) in *.
  eexists. split; [reflexivity|]. fold v2. unfold goodm, shownm. cbn [fst snd].
  destruct (assoc k s) as [o|] eqn:Ek.
  - destruct (assoc_split _ _ _ Ek (proj1 Hg)) as (a & b & -> & Ha & Hb). destruct (good_mid _ _ _ _ _ _ Hg) as (_ & _ & _ & H). destruct (H u) as [Hn Hf].
    cbn [fst snd] in *. rewrite del_split by assumption. split; [split|].
    + rewrite map_app. cbn [map fst]. apply nodup_snoc; [exact Hn|]. rewrite map_app, in_app_iff. tauto.
    + apply Forall_app. split; [exact Hf|]. constructor; [exact H4|constructor].
    + rewrite !map_app. cbn [map]. change (seen_at (k, v2)) with (k, seen v2). 
rewrite H5, H2. change (seen_at (k, o)) with (k, seen o). rewrite <- app_assoc. apply (QSetOld true).
  - apply assoc_None in Ek. destruct Hg as [Hn Hf]. cbn [fst snd] in *. rewrite del_notin by exact Ek. split; [split|].
    + rewrite map_app. cbn [map fst]. apply nodup_snoc; assumption.
    + apply Forall_app. split; [exact Hf|]. constructor; [exact H4|constructor].
    + rewrite !map_app. cbn [map]. change (seen_at (k, v2)) with (k, seen v2). rewrite H5, H2. apply QSetNew. rewrite keys_seen. exact Ek.
Qed.
Lemma del_keys_all ks : forall st w, goodm st -> map fst (snd (fst st)) = ks -> exists st', del_keys E ks st w = (Ok st', w) /\ snd (fst st') = [].
Proof.
  induction ks as [|k ks IH]; intros [[p s] u] w Hg Hk; cbn [fst snd] in *.
  - exists (p, s, u). destruct s; [auto|discriminate].
  - cbn [del_keys]. unfold mbind. destruct (mdel_step p s u k w Hg) as (r & st & H1 & H2 & H3). rewrite H1. cbn [snd].
    destruct H3 as [(a & o & b & -> & _ & -> & H3)|(Hn & _)]; [|exfalso; apply Hn; rewrite Hk; left; reflexivity].
    apply IH; [exact H2|]. rewrite H3. destruct (good_mid _ _ _ _ _ _ Hg) as (Ha & _ & _). rewrite map_app in *. cbn [map fst] in Hk.
    destruct (map fst a) as [|y l]; cbn in *; [congruence|]. injection Hk as -> _. exfalso. apply Ha. left. reflexivity.
Qed.
Lemma assoc_seen k s : assoc k (map seen_at s) = option_map seen (assoc k s).
Proof. induction s as [|[x y] s IH]; cbn; [reflexivity|]. destruct (str_eq_dec x k); [reflexivity|exact IH]. Qed.
Lemma mop_step st o w : goodm st -> Forall plain (dop_values o) ->
  exists r st', map_op E n st o w = (Ok (r, st'), w) /\ goodm st' /\ dict_step true (shownm st) o r (shownm st').
Proof.
  destruct st as [[p s] u]. intros Hg Hv. unfold shownm at 1. cbn [fst snd]. destruct o as [k|k v|k|k| | |]; cbn [map_op dop_values] in *.
  - destruct (mget_step p s u k w Hg) as (r & H1 & H2). exists r, (p, s, u). split; [exact H1|]. split; [exact Hg|]. unfold shownm. cbn [fst snd].
    destruct H2 as [(o & Ek & ->)|(Ek & ->)].
    + apply QGet. apply (in_map seen_at) in Ek || (apply assoc_In in Ek; apply (in_map seen_at) in Ek; exact Ek).
    + apply QGetE. rewrite keys_seen. apply assoc_None. exact Ek.
  - inversion Hv; subst. destruct (mset_step p s u k v w Hg) as (st & H4 & H5 & H6); [assumption|]. eauto.
  - destruct (mdel_step p s u k w Hg) as (r & st & H1 & H2 & H3). exists r, st. split; [exact H1|]. split; [exact H2|].
    destruct H3 as [(a & o & b & -> & _ & -> & H3)|(Hn & -> & ->)]; unfold shownm.
    + rewrite H3, !map_app. cbn [map]. apply QDel.
    + cbn [fst snd]. apply QDelE. rewrite keys_seen. exact Hn.
  - unfold mbind at 1. destruct (mget_step p s u k w Hg) as (r & H1 & H2). rewrite H1. destruct (mdel_step p s u k w Hg) as (r2 & st & H3 & H4 & H5).
    destruct H2 as [(o & Ek & ->)|(Ek & ->)].
    + unfold mbind. rewrite H3. eexists _, st. split; [reflexivity|]. split; [exact H4|]. cbn [fst].
      destruct H5 as [(a & o' & b & -> & Ek' & -> & H5)|(Hn & -> & H5)].
      * replace o' with o in * by congruence. unfold shownm. rewrite H5, !map_app. cbn [map]. apply QPop.
      * exfalso. apply Hn. apply assoc_In in Ek. apply (in_map fst) in Ek. exact Ek.
    + exists (Exn KeyError), (p, s, u). split; [reflexivity|]. split; [exact Hg|]. unfold shownm. cbn [fst snd]. apply QPopE. rewrite keys_seen. apply assoc_None. exact Ek.
  - eexists _, (p, s, u). split; [reflexivity|]. split; [exact Hg|]. cbn [fst snd]. rewrite <- (map_length seen_at s). apply QLen.
  - eexists _, (p, s, u). split; [reflexivity|]. split; [exact Hg|]. cbn [fst snd].
    replace (map (fun kv : str * obj => OAtom (AStr (fst kv))) s) with (map (fun kv : str * obj => OAtom (AStr (fst kv))) (map seen_at s)) by (rewrite map_map; reflexivity).
    apply QKeys.
  - unfold mbind. destruct (del_keys_all (map fst s) (p, s, u) w Hg eq_refl) as ([[p' s'] u'] & H1 & H2). cbn [fst snd]. rewrite H1. cbn [fst snd] in H2. subst s'.
    eexists _, _. split; [reflexivity|]. split; [split; constructor|]. apply QClear.
Qed.
Lemma mops_steps ops : forall st w, goodm st -> Forall (fun o => Forall plain (dop_values o)) ops ->
  exists rs st', map_ops E n st ops w = (Ok (rs, st'), w) /\ goodm st' /\ dict_steps true (shownm st) ops rs (shownm st').
Proof.
  induction ops as [|o ops IH]; intros st w Hg Hv.
  - exists [], st. split; [reflexivity|]. split; [exact Hg|constructor].
  - inversion Hv; subst. destruct (mop_step st o w Hg) as (r & st1 & H3 & H4 & H5); [assumption|].
    destruct (IH st1 w H4) as (rs & st2 & H6 & H7 & H8); [assumption|].
    exists (r :: rs), st2. cbn [map_ops]. unfold mbind at 1. rewrite H3. cbn [snd fst]. unfold mbind. rewrite H6. split; [reflexivity|]. split; [exact H7|]. econstructor; eassumption.
Qed.
End Dicts.

(** ** C38 *)
(** A model dict with its items in memory is a dict in which assigning an existing key moves it to the end. *)
Theorem C38_order : forall E n p items unused ops w,
  NoDup (map fst items) -> Forall (fun kv => in_memory (snd kv)) items -> Forall (fun o => Forall plain (dop_values o)) ops ->
  exists results p' items' unused',
    map_ops E n (p, items, unused) ops w = (Ok (results, (p', items', unused')), w) /\
    dict_steps true (map seen_at items) ops results (map seen_at items').
Proof.
  intros E n p items unused ops w Hn Hi Hv. destruct (mops_steps E n ops (p, items, unused) w (conj Hn Hi) Hv) as (rs & [[p' s'] u'] & H1 & H2 & H3).
  exists rs, p', s', u'. auto.
Qed.
Lemma step_perm d o r d1 : dict_step true d o r d1 -> NoDup (map fst d) -> forall e, Permutation d e ->
  exists r' e1, dict_step false e o r' e1 /\ same_result o r r' /\ Permutation d1 e1 /\ NoDup (map fst d1).
Proof.
  intros H Hn e Hp.
  assert (Hk : forall k, ~ In k (map fst d) -> ~ In k (map fst e)).
  { intros k Hd He. apply Hd. apply (Permutation_in _ (Permutation_sym (Permutation_map fst Hp)) He). }
  assert (Hm : forall a k (x : obj) b, d = a ++ (k, x) :: b -> exists a' b', e = a' ++ (k, x) :: b' /\ Permutation (a ++ b) (a' ++ b')).
  { intros a k x b ->. destruct (in_split (k, x) e) as (a' & b' & ->).
    - apply (Permutation_in _ Hp). apply in_or_app. right. left. reflexivity.
    - exists a', b'. split; [reflexivity|]. exact (Permutation_app_inv _ _ _ _ _ Hp). }
  inversion H; subst.
  - eexists _, e. split; [apply QGet; exact (Permutation_in _ Hp H0)|]. split; [constructor; discriminate|]. auto.
  - eexists _, e. split; [apply QGetE; auto|]. split; [constructor; discriminate|]. auto.
  - eexists _, _. split; [apply QSetNew; auto|]. split; [constructor; discriminate|]. split; [apply Permutation_app_tail; exact Hp|].
    rewrite map_app. apply nodup_snoc; assumption.
  - destruct (Hm _ _ _ _ eq_refl) as (a' & b' & -> & Hp'). eexists _, _. split; [apply QSetOld|]. split; [constructor; discriminate|]. split.
    + rewrite app_assoc. eapply Permutation_trans; [apply Permutation_app_comm|]. cbn. eapply Permutation_trans; [apply perm_skip; exact Hp'|]. apply Permutation_middle.
    + rewrite map_app in Hn. cbn in Hn. apply NoDup_remove in Hn as [Hn1 Hn2]. rewrite app_assoc, map_app. cbn. apply nodup_snoc; rewrite map_app; assumption.
  - destruct (Hm _ _ _ _ eq_refl) as (a' & b' & -> & Hp'). eexists _, _. split; [apply QDel|]. split; [constructor; discriminate|]. split; [exact Hp'|].
    rewrite map_app in *. cbn in Hn. apply NoDup_remove in Hn. tauto.
  - eexists _, e. split; [apply QDelE; auto|]. split; [constructor; discriminate|]. auto.
  - destruct (Hm _ _ _ _ eq_refl) as (a' & b' & -> & Hp'). eexists _, _. split; [apply QPop|]. split; [constructor; discriminate|]. split; [exact Hp'|].
    rewrite map_app in *. cbn in Hn. apply NoDup_remove in Hn. tauto.
  - eexists _, e. split; [apply QPopE; auto|]. split; [constructor; discriminate|]. auto.
  - eexists _, e. split; [apply QLen|]. split; [rewrite (Permutation_length Hp); constructor; discriminate|]. auto.
  - eexists _, e. split; [apply QKeys|]. split; [constructor; apply Permutation_map; exact Hp|]. auto.
  - eexists _, _. split; [apply QClear|]. split; [constructor; discriminate|]. split; [constructor|constructor].
Qed.
Lemma steps_perm d ops rs d1 : dict_steps true d ops rs d1 -> NoDup (map fst d) -> forall e, Permutation d e ->
  exists rs' e1, dict_steps false e ops rs' e1 /\ Forall2 (fun o rr => same_result o (fst rr) (snd rr)) ops (combine rs rs') /\ List.length rs' = List.length rs /\ Permutation d1 e1.
Proof.
  induction 1 as [d|d o r d1 ops rs d2 H1 H2 IH]; intros Hn e Hp.
  - exists [], e. repeat split; try constructor. exact Hp.
  - destruct (step_perm _ _ _ _ H1 Hn e Hp) as (r' & e1 & H3 & H4 & H5 & H6). destruct (IH H6 e1 H5) as (rs' & e2 & H7 & H8 & H9 & H10).
    exists (r' :: rs'), e2. split; [econstructor; eassumption|]. split; [constructor; assumption|]. split; [cbn; congruence|exact H10].
Qed.
(** Any sequence of dict methods gives the results and errors of a Python dict, up to the order of iteration, and leaves
    the same items, in memory and without touching a file. *)
Theorem C38_like_a_dict : forall E n p items unused ops w,
  NoDup (map fst items) -> Forall (fun kv => in_memory (snd kv)) items -> Forall (fun o => Forall plain (dop_values o)) ops ->
  exists results p' items' unused' dict_results dict_items,
    map_ops E n (p, items, unused) ops w = (Ok (results, (p', items', unused')), w) /\
    dict_steps false (map seen_at items) ops dict_results dict_items /\
    List.length dict_results = List.length results /\
    Forall2 (fun o rr => same_result o (fst rr) (snd rr)) ops (combine results dict_results) /\
    Permutation (map seen_at items') dict_items.
Proof.
  intros E n p items unused ops w Hn Hi Hv. destruct (C38_order E n p items unused ops w Hn Hi Hv) as (rs & p' & s' & u' & H1 & H2).
  destruct (steps_perm _ _ _ _ H2) with (e := map seen_at items) as (rs' & e1 & H3 & H4 & H5 & H6); [rewrite keys_seen; exact Hn|reflexivity|].
  exists rs, p', s', u', rs', e1. auto.
Qed.
Definition ex_entries : list (str * obj) := [($"a", OAtom (AInt 1)); ($"b", ORec (OLeaf 0 ($"x")) (auto_target []) false None None)].
Example C38_example :
  let ops := [DSet ($"a") (OLeaf 0 ($"y")); DKeys; DGet ($"b"); DDel ($"z")] in
  NoDup (map fst ex_entries) /\ Forall (fun kv => in_memory (snd kv)) ex_entries /\ Forall (fun o => Forall plain (dop_values o)) ops /\
  forall w, exists st, map_ops (ex_env "auto" false None) 3 (mkMap false [] false true false, ex_entries, []) ops w =
    (Ok ([Ok (OAtom ANone); Ok (OList [OAtom (AStr ($"b")); OAtom (AStr ($"a"))]); Ok (OLeaf 0 ($"x")); Exn KeyError], st), w).
Proof.
  split; [|split; [|split]].
  - cbn. repeat constructor; cbn; intuition discriminate.
  - unfold ex_entries. repeat apply Forall_cons; try exact I. apply Forall_nil.
  - repeat (apply Forall_cons; [cbn; repeat (apply Forall_cons; [exact I|]); apply Forall_nil|]). apply Forall_nil.
  - intros w. eexists. vm_compute. reflexivity.
Qed.

(** ** Specification of runs *)
(** The target of run [k]. *)
Definition run_file (sub stem : str) (own_dir : bool) (k : N) : target :=
  if own_dir then mkTarget (Some (join2 sub (stem ++ $"-" ++ str_of_N k))) (Some stem) None
  else mkTarget (Some sub) (Some (stem ++ $"-" ++ str_of_N k)) None.
(** The targets of the records in a list. *)
Definition targets (s : list obj) : list target := flat_map (fun o => match o with ORec _ t _ _ _ => [t] | _ => [] end) s.
(** The records of the list are runs with different numbers below [count]. *)
Definition made (sub stem : str) (own_dir : bool) (count : N) (s : list obj) : Prop :=
  NoDup (targets s) /\ forall t, In t (targets s) -> exists k, (k < count)%N /\ t = run_file sub stem own_dir k.

Lemma join2_inj a b c : isabs b = isabs c -> join2 a b = join2 a c -> b = c.
Proof.
  unfold join2. intros H. rewrite H. destruct (isabs c); [auto|]. intros E. destruct a as [|x a]; [exact E|].
  destruct (ends_sep (x :: a)); apply app_inv_head in E; [exact E|]. injection E. auto.
Qed.
Lemma run_file_inj sub stem ss i j : run_file sub stem ss i = run_file sub stem ss j -> i = j.
Proof.
  unfold run_file. intros H. apply str_of_N_inj. destruct ss; injection H as H; [apply join2_inj in H|]; try (apply app_inv_head in H; injection H; auto; fail).
  destruct stem; reflexivity.
Qed.
Lemma targets_app a b : targets (a ++ b) = targets a ++ targets b. Proof. apply flat_map_app. Qed.
Lemma targets_plain v : plain v -> targets [v] = []. Proof. destruct v; cbn; intros H; try reflexivity. destruct H. Qed.
Lemma targets_cons x b : targets (x :: b) = targets [x] ++ targets b. Proof. change (x :: b) with ([x] ++ b). apply targets_app. Qed.

Section Runs.
Variables (E : senv) (n : nat) (sto : bool) (sub : str) (pre : bool) (stem : str) (ss : bool).
Definition runs (m : N) : seqcfg := mkSeq sto sub pre (Some (stem, m, ss)).
(** From one state to a later one: a target is an old one or has a number not used before. *)
Definition grows (m : N) (s : list obj) (m' : N) (s' : list obj) : Prop :=
  (m <= m')%N /\
  (forall t, In t (targets s') -> In t (targets s) \/ exists k, (m <= k < m')%N /\ t = run_file sub stem ss k) /\
  (made sub stem ss m s -> made sub stem ss m' s').
Lemma grows_refl m s : grows m s m s. Proof. split; [lia|]. split; auto. Qed.
Lemma grows_same m s s' : targets s' = targets s -> grows m s m s'.
Proof. intros H. split; [lia|]. unfold made. rewrite H. auto. Qed.
Lemma grows_trans m1 s1 m2 s2 m3 s3 : grows m1 s1 m2 s2 -> grows m2 s2 m3 s3 -> grows m1 s1 m3 s3.
Proof.
  intros (A1 & B1 & C1) (A2 & B2 & C2). split; [lia|]. split; [|auto]. intros t Ht. destruct (B2 t Ht) as [H|(k & Hk & ->)].
  - destruct (B1 t H) as [H'|(k & Hk & ->)]; [auto|]. right. exists k. split; [lia|reflexivity].
  - right. exists k. split; [lia|reflexivity].
Qed.
(** One new record among the others. *)
Lemma grows_new m s a b x c : targets s = targets a ++ targets b -> targets [x] = [run_file sub stem ss m] -> c = a ++ x :: b -> grows m s (m + 1) c.
Proof.
  intros Hs Hx ->. unfold grows, made. rewrite targets_app, targets_cons, Hx, Hs. cbn. split; [lia|]. split.
  - intros t Ht. rewrite in_app_iff in *. destruct Ht as [Ht|[<-|Ht]]; [auto| |auto]. right. exists m. split; [lia|reflexivity].
  - intros [Hn Hb]. split.
    + apply (Permutation_NoDup (Permutation_middle _ _ _)). constructor; [|exact Hn]. intros Hin. destruct (Hb _ Hin) as (k & Hk & Ek). apply run_file_inj in Ek. lia.
    + intros t Ht. rewrite in_app_iff in *. destruct Ht as [Ht|[<-|Ht]].
      * destruct (Hb t) as (k & Hk & ->); [rewrite in_app_iff; auto|]. exists k. split; [lia|reflexivity].
      * exists m. split; [lia|reflexivity].
      * destruct (Hb t) as (k & Hk & ->); [rewrite in_app_iff; auto|]. exists k. split; [lia|reflexivity].
Qed.
Lemma grows_less m s a b : (exists c, targets s = targets a ++ c ++ targets b) -> grows m s m (a ++ b).
Proof.
  intros (c & Hs). unfold grows, made. rewrite targets_app, Hs. split; [lia|]. split.
  - intros t Ht. left. rewrite !in_app_iff in *. tauto.
  - intros [Hn Hb]. split.
    + clear -Hn. induction (targets a) as [|y l IH]; cbn in *; [revert Hn; induction c as [|z c IHc]; [auto|]; intros Hn; inversion Hn; auto|]. inversion Hn; subst. constructor; [|auto].
      rewrite !in_app_iff in *. tauto.
    + intros t Ht. apply Hb. rewrite !in_app_iff in *. tauto.
Qed.

Lemma wrap_runs m v q' v' : plain v -> seq_wrap E (runs m) v = (q', v') ->
  (q' = runs (m + 1) /\ targets [v'] = [run_file sub stem ss m]) \/ (q' = runs m /\ targets [v'] = []).
Proof.
  unfold seq_wrap. intros Hv. destruct (is_storable E v).
  - unfold seq_make_record, runs. cbn [q_runs q_sto q_sub q_pre]. intros H. left. inversion H; subst. split; [reflexivity|]. cbn. unfold run_file, run_key. destruct ss; reflexivity.
  - intros H. inversion H; subst. right. split; [reflexivity|]. apply targets_plain. exact Hv.
Qed.
Lemma content_targets o w v o' w' : content_of E n o w = (Ok (v, o'), w') -> targets [o'] = targets [o].
Proof.
  unfold content_of. destruct o; try (intros H; inversion H; subst; reflexivity). intros H. apply mbind_ok in H as ([[x c'] re'] & w1 & H1 & H2). inversion H2; subst. reflexivity.
Qed.
Lemma get_runs m s u i w r st w' : seq_get E n (runs m, s, u) i w = (Ok (r, st), w') -> exists s', st = (runs m, s', u) /\ targets s' = targets s /\ List.length s' = List.length s.
Proof.
  unfold seq_get. destruct (list_pos i (List.length s)) as [k|] eqn:Ek; [|intros H; inversion H; subst; eauto].
  apply list_pos_some, index_lt in Ek. destruct (split_at s k Ek) as (a & x & b & -> & <-). rewrite nth_error_mid. intros H.
  apply mbind_ok in H as ([v o'] & w1 & H1 & H2). cbn [fst snd] in H2. rewrite set_nth_app in H2. inversion H2; subst. exists (a ++ o' :: b). split; [reflexivity|].
  rewrite !targets_app, (targets_cons x), (targets_cons o'). rewrite (content_targets _ _ _ _ _ H1), !app_length. auto.
Qed.
Lemma over_runs old v w v1 more w' : plain v -> over E n old v w = (Ok (v1, more), w') ->
  (v1 = v \/ is_storable E v1 = false /\ targets [v1] = targets [old]) /\ (v1 = v -> is_storable E v = true -> targets [old] = []).
Proof.
  intros Hv. unfold over. destruct old as [| | | | | | |c t pr we re| | |]; try (intros H; inversion H; subst; split; [left; reflexivity|intros; reflexivity]; fail).
  destruct (is_storable E v) eqn:Es.
  - intros H. apply mbind_ok in H as ([c' o'] & w1 & H1 & H2).
    assert (Ho : exists c2 we2 re2 pr2, o' = ORec c2 t pr2 we2 re2).
    { destruct (s_clean E); [|inversion H1; subst; eauto]. apply mbind_ok in H1 as ([[x y] z] & w2 & H3 & H4). inversion H4; subst. eauto 10. }
    destruct Ho as (c2 & we2 & re2 & pr2 & ->). inversion H2; subst. split; [right; split; reflexivity|]. intros He. rewrite <- He in Hv. destruct Hv.
  - intros H. inversion H; subst. split; [left; reflexivity|discriminate].
Qed.
Lemma targets_set a x y b : targets [y] = targets [x] -> targets (a ++ y :: b) = targets (a ++ x :: b).
Proof. intros H. rewrite !targets_app, (targets_cons x), (targets_cons y), H. reflexivity. Qed.
Lemma set_runs m s u i v w r st w' : plain v -> seq_set E n (runs m, s, u) i v w = (Ok (r, st), w') ->
  exists m' s' u', st = (runs m', s', u') /\ grows m s m' s'.
Proof.
  intros Hv. unfold seq_set. destruct (i <? Z.of_nat (List.length s))%Z.
  - destruct (list_pos i (List.length s)) as [k|] eqn:Ek; [|intros H; inversion H; subst; eauto using grows_refl].
    apply list_pos_some, index_lt in Ek. destruct (split_at s k Ek) as (a & x & b & -> & <-). rewrite nth_error_mid. intros H.
    apply mbind_ok in H as ([v1 more] & w1 & H1 & H2). apply over_runs in H1 as [H1 H3]; [|exact Hv].
    destruct (seq_wrap E (runs m) v1) as [q' v2] eqn:Ew. rewrite set_nth_app in H2. inversion H2; subst. clear H2.
    destruct H1 as [->|[Hns Ht]].
    + unfold seq_wrap in Ew. destruct (is_storable E v) eqn:Es.
      * specialize (H3 eq_refl eq_refl). destruct (wrap_runs m v q' v2 Hv) as [[-> Hr]|[-> Hr]]; [unfold seq_wrap; rewrite Es; exact Ew| |].
        -- eexists _, _, _. split; [reflexivity|]. eapply grows_new; [|exact Hr|reflexivity]. rewrite targets_app, targets_cons, H3. reflexivity.
        -- eexists _, _, _. split; [reflexivity|]. apply grows_same. apply targets_set. congruence.
      * inversion Ew; subst. eexists _, _, _. split; [reflexivity|].
        destruct (grows_less m (a ++ x :: b) a b) as (A & B & C); [exists (targets [x]); rewrite targets_app, targets_cons; reflexivity|].
        assert (Et : targets (a ++ v2 :: b) = targets (a ++ b)) by (rewrite !targets_app, targets_cons, targets_plain by exact Hv; reflexivity).
        unfold grows, made in *. rewrite Et. auto.
    + unfold seq_wrap in Ew. rewrite Hns in Ew. inversion Ew; subst. eexists _, _, _. split; [reflexivity|]. apply grows_same, targets_set, Ht.
  - destruct (seq_wrap E (runs m) v) as [q' v'] eqn:Ew. intros H. inversion H; subst. destruct (wrap_runs m v q' v' Hv Ew) as [[-> Hr]|[-> Hr]]; eexists _, _, _; (split; [reflexivity|]); [|apply grows_refl].
    split; [lia|]. split; [auto|]. intros [Hn Hb]. split; [exact Hn|]. intros t Ht. destruct (Hb t Ht) as (k & Hk & ->). exists k. split; [lia|reflexivity].
Qed.
Lemma insert_runs m s u i v w r st w' : plain v -> seq_insert E (runs m, s, u) i v w = (Ok (r, st), w') ->
  exists m' s' u', st = (runs m', s', u') /\ grows m s m' s'.
Proof.
  intros Hv. unfold seq_insert. destruct (seq_wrap E (runs m) v) as [q' v'] eqn:Ew. intros H. inversion H; subst.
  set (k := insert_pos _ _). assert (Hs : targets s = targets (firstn k s) ++ targets (skipn k s)) by (rewrite <- targets_app, firstn_skipn; reflexivity).
  destruct (wrap_runs m v q' v' Hv Ew) as [[-> Hr]|[-> Hr]]; eexists _, _, _; (split; [reflexivity|]).
  - eapply grows_new; [exact Hs|exact Hr|reflexivity].
  - apply grows_same. unfold insert_nth. rewrite targets_app, targets_cons, Hr. symmetry. exact Hs.
Qed.
Lemma del_runs m s u i w r st w' : seq_del E (runs m, s, u) i w = (Ok (r, st), w') -> exists s' u', st = (runs m, s', u') /\ grows m s m s'.
Proof.
  unfold seq_del. destruct (list_pos i (List.length s)) as [k|] eqn:Ek; [|intros H; inversion H; subst; eauto using grows_refl].
  apply list_pos_some, index_lt in Ek. destruct (split_at s k Ek) as (a & x & b & -> & <-). rewrite nth_error_mid, remove_nth_app. intros H. inversion H; subst.
  eexists _, _. split; [reflexivity|]. apply grows_less. exists (targets [x]). rewrite targets_app, targets_cons. reflexivity.
Qed.
Lemma extend_runs vs : Forall plain vs -> forall m s u w r st w', seq_extend E (runs m, s, u) vs w = (Ok (r, st), w') ->
  exists m' s' u', st = (runs m', s', u') /\ grows m s m' s'.
Proof.
  induction 1 as [|v vs Hv Hvs IH]; intros m s u w r st w' H.
  - inversion H; subst. eauto using grows_refl.
  - cbn [seq_extend] in H. apply mbind_ok in H as ([r1 st1] & w1 & H1 & H2). apply insert_runs in H1 as (m1 & s1 & u1 & -> & H1); [|exact Hv].
    cbn [snd] in H2. apply IH in H2 as (m2 & s2 & u2 & -> & H2). exists m2, s2, u2. split; [reflexivity|]. eapply grows_trans; eassumption.
Qed.
Lemma iter_targets s : forall w xs w', mapM (content_of E n) s w = (Ok xs, w') -> targets (map snd xs) = targets s.
Proof.
  induction s as [|o s IH]; intros w xs w' H; cbn [mapM] in H.
  - inversion H; subst. reflexivity.
  - apply mbind_ok in H as ([v o'] & w1 & H1 & H2). apply mbind_ok in H2 as (ys & w2 & H2 & H3). inversion H3; subst. cbn [map snd].
    rewrite (targets_cons o'), (targets_cons o), (content_targets _ _ _ _ _ H1), (IH _ _ _ H2). reflexivity.
Qed.
Lemma op_runs m s u o w r st w' : Forall plain (sop_values o) -> o <> LClear -> seq_op E n (runs m, s, u) o w = (Ok (r, st), w') ->
  exists m' s' u', st = (runs m', s', u') /\ grows m s m' s'.
Proof.
  intros Hv Hc H. destruct o as [i|i v|i v|i|v|vs|i| | |]; cbn [seq_op sop_values fst snd] in *; try (inversion Hv; subst).
  - apply get_runs in H as (s' & -> & H & _). eexists _, _, _. split; [reflexivity|]. apply grows_same. exact H.
  - eapply set_runs; eassumption.
  - eapply insert_runs; eassumption.
  - apply del_runs in H as (s' & u' & -> & H). eauto.
  - eapply insert_runs; eassumption.
  - eapply extend_runs; [constructor|eassumption].
  - eapply extend_runs; [constructor; eassumption|eassumption].
  - apply mbind_ok in H as ([r1 st1] & w1 & H1 & H2). apply get_runs in H1 as (s' & -> & Ht & _). destruct r1 as [v|e].
    + apply mbind_ok in H2 as ([r2 st2] & w2 & H2 & H3). inversion H3; subst. apply del_runs in H2 as (s2 & u2 & -> & H2). eexists _, _, _. split; [reflexivity|].
      eapply grows_trans; [apply grows_same; exact Ht|exact H2].
    + inversion H2; subst. eexists _, _, _. split; [reflexivity|]. apply grows_same. exact Ht.
  - inversion H; subst. eauto using grows_refl.
  - apply mbind_ok in H as (xs & w1 & H1 & H2). inversion H2; subst. eexists _, _, _. split; [reflexivity|]. apply grows_same. eapply iter_targets. exact H1.
  - congruence.
Qed.
Lemma ops_runs ops : forall m s u w rs st w', Forall (fun o => Forall plain (sop_values o) /\ o <> LClear) ops -> seq_ops E n (runs m, s, u) ops w = (Ok (rs, st), w') ->
  exists m' s' u', st = (runs m', s', u') /\ grows m s m' s'.
Proof.
  induction ops as [|o ops IH]; intros m s u w rs st w' Hv H; cbn [seq_ops] in H.
  - inversion H; subst. eauto using grows_refl.
  - inversion Hv as [|? ? [Hv1 Hv2] Hv3]; subst. apply mbind_ok in H as ([r1 st1] & w1 & H1 & H2). apply mbind_ok in H2 as ([rs2 st2] & w2 & H2 & H3). inversion H3; subst.
    apply op_runs in H1 as (m1 & s1 & u1 & -> & H1); [|assumption|assumption]. cbn [snd] in *. apply IH in H2 as (m2 & s2 & u2 & -> & H2); [|assumption].
    exists m2, s2, u2. split; [reflexivity|]. eapply grows_trans; eassumption.
Qed.
End Runs.

(** ** C39 *)
(** Through any history without clear, whether or not items are loaded on the way: the records of a list of runs have
    pairwise different targets, with numbers below the counter, which never goes back; and a target that is no longer in
    the list never comes back. *)
Theorem C39_never_reused : forall E n sto sub pre stem own_dir count items unused w ops1 ops2 rs1 st1 w1 rs2 st2 w2,
  let q k := mkSeq sto sub pre (Some (stem, k, own_dir)) in
  made sub stem own_dir count items ->
  Forall (fun o => Forall plain (sop_values o) /\ o <> LClear) (ops1 ++ ops2) ->
  seq_ops E n (q count, items, unused) ops1 w = (Ok (rs1, st1), w1) ->
  seq_ops E n st1 ops2 w1 = (Ok (rs2, st2), w2) ->
  exists count1 items1 unused1 count2 items2 unused2,
    st1 = (q count1, items1, unused1) /\ st2 = (q count2, items2, unused2) /\ (count <= count1 <= count2)%N /\
    made sub stem own_dir count2 items2 /\
    forall t, In t (targets items) -> ~ In t (targets items1) -> ~ In t (targets items2).
Proof.
  intros E n sto sub pre stem ss m s u w ops1 ops2 rs1 st1 w1 rs2 st2 w2 q Hm Hv H1 H2. apply Forall_app in Hv as [Hv1 Hv2].
  apply (ops_runs E n sto sub pre stem ss) in H1 as (m1 & s1 & u1 & -> & A1 & B1 & C1); [|exact Hv1].
  apply (ops_runs E n sto sub pre stem ss) in H2 as (m2 & s2 & u2 & -> & A2 & B2 & C2); [|exact Hv2].
  exists m1, s1, u1, m2, s2, u2. split; [reflexivity|]. split; [reflexivity|]. split; [lia|]. split; [auto|].
  intros t Ha Hb Hc. destruct (B2 t Hc) as [H|(k & Hk & ->)]; [contradiction|]. destruct (proj2 Hm _ Ha) as (k' & Hk' & Ek). apply run_file_inj in Ek. lia.
Qed.
(** A storable value put into the list gets the next number. *)
Theorem C39_next_number : forall E sto sub pre stem own_dir count items unused i v w, is_storable E v = true ->
  let q k := mkSeq sto sub pre (Some (stem, k, own_dir)) in
  exists a b, items = a ++ b /\
    seq_insert E (q count, items, unused) i v w =
    (Ok (Ok (OAtom ANone), (q (count + 1)%N, a ++ ORec v (run_file sub stem own_dir count) pre None None :: b, unused)), w).
Proof.
  intros E sto sub pre stem ss m s u i v w Hs q. set (k := insert_pos i (List.length s)). exists (firstn k s), (skipn k s). split; [symmetry; apply firstn_skipn|].
  unfold seq_insert, seq_wrap. rewrite Hs. fold k. unfold seq_make_record, q, run_file, run_key. cbn. destruct ss; reflexivity.
Qed.
(** Saving keeps the counter: what is written, when read back, gives the same stem, counter and layout. *)
Theorem C39_counter_saved : forall E n F cx cx' sto sub pre stem own_dir count items unused o p w w1 r w2,
  let q := mkSeq sto sub pre (Some (stem, count, own_dir)) in
  ser_seq E F cx q items unused w = (Ok (o, PDict p), w1) ->
  de_seq E (depth E n) cx' true sto p w1 = (Ok r, w2) ->
  exists items', r = OSeq q items' [].
Proof.
  intros E n F cx cx' sto sub pre stem ss m s u o p w w1 r w2 q H1 H2.
  unfold ser_seq in H1. apply mbind_ok in H1 as (x & wa & _ & H1). apply mbind_ok in H1 as (its & wb & _ & H1). apply mbind_ok in H1 as (y & wc & _ & H1).
  cbn [ret q q_runs q_sub q_pre] in H1.
  assert (Ep : p = ([(key "stem", PAtom (AStr stem)); (key "run_count", PAtom (AInt (Z.of_N m)))] ++ (if ss then [] else [(key "store_subdir", PAtom (ABool false))])) ++
     [(key "store", PList (kept its))] ++ str_entry "subdir" sub ++ bool_entry "preload" pre) by (unfold ret in H1; congruence).
  assert (G : get "store" p = Some (PList (kept its)) /\ get_text "stem" [] p = stem /\ get "run_count" p = Some (PAtom (AInt (Z.of_N m))) /\
              get_bool "store_subdir" true p = ss /\ get_text "subdir" [] p = sub /\ get_bool "preload" false p = pre).
  { rewrite Ep. unfold str_entry, bool_entry. destruct ss, sub, pre; repeat split; reflexivity. }
  destruct G as (G1 & G2 & G3 & G4 & G5 & G6). unfold de_seq in H2. rewrite G1, G2, G3, G4, G5, G6 in H2. apply mbind_ok in H2 as (vs & wd & _ & H2).
  assert (Hf : forall vs q0 l, q_sub (fst (fold_left (seq_append E) vs (q0, l))) = q_sub q0 /\ q_pre (fst (fold_left (seq_append E) vs (q0, l))) = q_pre q0).
  { clear. induction vs as [|v vs IH]; intros q0 l; [auto|]. cbn [fold_left seq_append]. destruct (is_storable E v); [|apply IH].
    unfold seq_make_record. destruct (q_runs q0) as [[[a b] c]|]; destruct (IH (mkSeq (q_sto q0) (q_sub q0) (q_pre q0) (q_runs q0)) l) as [_ _];
      match goal with |- context[fold_left _ vs ?x] => destruct (IH (fst x) (snd x)) as [Ha Hb] end; cbn [fst snd] in *; rewrite Ha, Hb; auto. }
  destruct (Hf vs (mkSeq sto sub pre (Some ($"run", 0%N, true))) []) as [F1 F2]. destruct (fold_left _ vs _) as [q1 s1]. cbn [fst q_sub q_pre] in F1, F2. rewrite F1, F2, N2Z.id in H2.
  unfold ret in H2. injection H2 as <- _. exists s1. reflexivity.
Qed.
(** But [clear] starts again at 0: the names of the runs made before it are given out a second time. *)
Lemma del_last_clears E q k : forall s u w, List.length s = k -> exists u', del_last E k (q, s, u) w = (Ok (q, [], u'), w).
Proof.
  induction k as [|k IH]; intros s u w Hl; cbn [del_last].
  - destruct s; [|discriminate]. eexists. reflexivity.
  - unfold mbind, seq_del. assert (Hp : list_pos (Z.of_nat k) (List.length s) = Some k).
    { unfold list_pos. rewrite Hl. cbn zeta. replace (Z.of_nat k <? 0)%Z with false by (symmetry; apply Z.ltb_ge; lia).
      replace (0 <=? Z.of_nat k)%Z with true by (symmetry; apply Z.leb_le; lia). replace (Z.of_nat k <? Z.of_nat (S k))%Z with true by (symmetry; apply Z.ltb_lt; lia).
      cbn [andb]. rewrite Nat2Z.id. reflexivity. }
    rewrite Hp. cbn [ret snd]. apply IH.
    clear - Hl. revert k Hl. induction s as [|x s IHs]; intros k Hl; [discriminate|]. destruct k as [|k]; [destruct s; [reflexivity|discriminate]|]. cbn. f_equal. apply IHs. cbn in Hl. congruence.
Qed.
Theorem C39_clear_restarts : forall E n sto sub pre stem own_dir count items unused v w, is_storable E v = true ->
  let q k := mkSeq sto sub pre (Some (stem, k, own_dir)) in
  exists unused', seq_ops E n (q count, items, unused) [LClear; LAppend v] w =
    (Ok ([Ok (OAtom ANone); Ok (OAtom ANone)], (q 1%N, [ORec v (run_file sub stem own_dir 0) pre None None], unused')), w).
Proof.
  intros E n sto sub pre stem ss m s u v w Hs q. destruct (del_last_clears E (q m) (List.length s) s u w eq_refl) as [u' Hu]. exists u'.
  cbn [seq_ops seq_op]. unfold seq_clear, mbind. rewrite Hu. unfold ret. cbn [snd fst List.length q_runs q_sto q_sub q_pre q].
  unfold seq_insert, seq_wrap. rewrite Hs. unfold seq_make_record, run_file, run_key, ret. cbn. destruct ss; reflexivity.
Qed.
Example C39_restart_example : let E := ex_env "auto" false None in is_storable E (OLeaf 0 ($"c")) = true /\ run_file ($"d") ($"run") true 0 = mkTarget (Some ($"d/run-0")) (Some ($"run")) None.
Proof. split; reflexivity. Qed.
Definition ex_runs : list sop := [LAppend (OLeaf 0 ($"a")); LAppend (OAtom (AInt 1)); LAppend (OLeaf 0 ($"b")); LDel 0].
Example C39_example :
  let E := ex_env "auto" false None in
  Forall (fun o => Forall plain (sop_values o) /\ o <> LClear) (ex_runs ++ [LInsert 0 (OLeaf 0 ($"c"))]) /\ made ($"d") ($"run") true 0 [] /\
  forall w, exists rs st rs', seq_ops E 3 (mkSeq false ($"d") false (Some ($"run", 0%N, true)), [], []) ex_runs w = (Ok (rs, st), w) /\
    seq_ops E 3 st [LInsert 0 (OLeaf 0 ($"c"))] w =
    (Ok (rs', (mkSeq false ($"d") false (Some ($"run", 3%N, true)),
       [ORec (OLeaf 0 ($"c")) (mkTarget (Some ($"d/run-2")) (Some ($"run")) None) false None None; OAtom (AInt 1);
        ORec (OLeaf 0 ($"b")) (mkTarget (Some ($"d/run-1")) (Some ($"run")) None) false None None],
       [ORec (OLeaf 0 ($"a")) (mkTarget (Some ($"d/run-0")) (Some ($"run")) None) false None None])), w).
Proof.
  split; [|split].
  - unfold ex_runs. cbn [app]. repeat (apply Forall_cons; [split; [cbn; repeat (apply Forall_cons; [exact I|]); apply Forall_nil|discriminate]|]). apply Forall_nil.
  - split; [constructor|]. intros t [].
  - intros w.
    let E := constr:(ex_env "auto" false None) in
    let v := eval vm_compute in (fst (seq_ops E 3 (mkSeq false ($"d") false (Some ($"run", 0%N, true)), [], []) ex_runs ex_world)) in
    match v with Ok (?rs, ?st) => exists rs, st, [Ok (OAtom ANone)] end.
    split; vm_compute; reflexivity.
Qed.
Example C39_counter_example :
  let E := ex_env "auto" false None in
  let q := mkSeq false ($"d") false (Some ($"run", 5%N, false)) in
  exists o p w1 w2, ser_seq E (depth E 3) None q [OAtom (AInt 1)] [] ex_world = (Ok (o, PDict p), w1) /\
    de_seq E (depth E 3) None true false p w1 = (Ok (OSeq q [OAtom (AInt 1)] []), w2).
Proof.
  intros E q.
  let v := eval vm_compute in (ser_seq E (depth E 3) None q [OAtom (AInt 1)] [] ex_world) in
  match v with (Ok (?o, PDict ?p), ?w1) => exists o, p, w1, w1 end.
  split; vm_compute; reflexivity.
Qed.

(** ** C42 *)
(** What [record(value, idx, ...)] does with the options: they go to the item [x], or fail for it. *)
Inductive edited (stem suffix name : part) (subdir : str) (pre : bool) (x : obj) : res obj -> obj -> Prop :=
| EditOk x' : edit_target x stem suffix name subdir pre = Ok x' -> edited stem suffix name subdir pre x (Ok (OAtom ANone)) x'
| EditFail e : edit_target x stem suffix name subdir pre = Exn e -> edited stem suffix name subdir pre x (Exn e) x.
Section Record.
Variables (E : senv).
Lemma record_at st v idx stem suffix name subdir pre w q r : is_storable E v = true -> seq_make_record (fst (fst st)) v = (q, r) ->
  let '(_, s, u) := st in
  let p := insert_pos (match idx with None => Z.of_nat (List.length s) | Some i => i end) (List.length s) in
  let s1 := firstn p s ++ r :: skipn p s in
  match list_pos (match idx with None => (-1)%Z | Some i => i end) (S (List.length s)) with
  | None => seq_record E st v idx stem suffix name subdir pre w = (Ok (Exn IndexError, (q, s1, u)), w)
  | Some k => forall a x b, s1 = a ++ x :: b -> List.length a = k ->
      exists res x', edited stem suffix name subdir pre x res x' /\ seq_record E st v idx stem suffix name subdir pre w = (Ok (res, (q, a ++ x' :: b, u)), w)
  end.
Proof.
  destruct st as [[q0 s] u]. intros Hs Hr. cbn [fst snd] in Hr. cbv beta iota. intros p s1.
  assert (Hl : List.length s1 = S (List.length s)).
  { unfold s1. rewrite app_length. cbn [List.length]. rewrite <- (firstn_skipn p s) at 3. rewrite app_length. lia. }
  unfold seq_record, seq_insert, seq_wrap. cbn [fst snd]. rewrite Hs, Hr. unfold mbind. cbn [ret snd]. rewrite <- Hl.
  unfold ret at 1 2. cbn [snd]. fold p. change (insert_nth p r s) with s1.
  destruct (list_pos _ (List.length s1)) as [k|]; [|reflexivity]. intros a x b Es Ea. rewrite Es, <- Ea. rewrite nth_error_mid.
  destruct (edit_target x stem suffix name subdir pre) as [x'|e] eqn:Ee.
  - exists (Ok (OAtom ANone)), x'. split; [constructor; exact Ee|]. rewrite set_nth_app. reflexivity.
  - exists (Exn e), x. split; [constructor; exact Ee|]. reflexivity.
Qed.
End Record.
Lemma first_skip_app {A} (a b : list A) : firstn (List.length a) (a ++ b) = a /\ skipn (List.length a) (a ++ b) = b.
Proof. split; [rewrite firstn_app, Nat.sub_diag, firstn_all; cbn; apply app_nil_r|rewrite skipn_app, Nat.sub_diag, skipn_all; reflexivity]. Qed.
Ltac zcases := unfold list_pos, insert_pos; repeat match goal with
  | |- context[(?a <? ?b)%Z] => destruct (Z.ltb_spec a b)
  | |- context[(?a <=? ?b)%Z] => destruct (Z.leb_spec a b) end; cbn [andb]; try (exfalso; lia); try reflexivity; try (f_equal; lia).
(** Without index, and with an index from 0 to the length, the options go to the inserted value. *)
Theorem C42_edits_inserted : forall E q items unused v idx stem suffix name subdir pre w q' r a b,
  is_storable E v = true -> seq_make_record q v = (q', r) -> items = a ++ b ->
  (idx = None /\ b = []) \/ idx = Some (Z.of_nat (List.length a)) ->
  exists res r', edited stem suffix name subdir pre r res r' /\
    seq_record E (q, items, unused) v idx stem suffix name subdir pre w = (Ok (res, (q', a ++ r' :: b, unused)), w).
Proof.
  intros E q items u v idx stem suffix name subdir pre w q' r a b Hs Hr -> Hi.
  pose proof (record_at E (q, a ++ b, u) v idx stem suffix name subdir pre w q' r Hs Hr) as H. cbv beta iota zeta in H.
  assert (Hp : insert_pos (match idx with None => Z.of_nat (List.length (a ++ b)) | Some i => i end) (List.length (a ++ b)) = List.length a).
  { rewrite app_length. destruct Hi as [[-> ->]| ->]; cbn; zcases. }
  assert (Hq : list_pos (match idx with None => (-1)%Z | Some i => i end) (S (List.length (a ++ b))) = Some (List.length a)).
  { rewrite app_length. destruct Hi as [[-> ->]| ->]; cbn [List.length]; zcases. }
  rewrite Hq in H.
  rewrite Hp in H. destruct (first_skip_app a b) as [Hf Hk]. rewrite Hf, Hk in H. apply H; reflexivity.
Qed.
(** With a negative index of the list, the value goes before the item of that index and the options go to that item. *)
Theorem C42_negative_edits_other : forall E q unused v stem suffix name subdir pre w q' r a x b,
  is_storable E v = true -> seq_make_record q v = (q', r) ->
  exists res x', edited stem suffix name subdir pre x res x' /\
    seq_record E (q, a ++ x :: b, unused) v (Some (- Z.of_nat (List.length (x :: b)))%Z) stem suffix name subdir pre w =
    (Ok (res, (q', a ++ r :: x' :: b, unused)), w).
Proof.
  intros E q u v stem suffix name subdir pre w q' r a x b Hs Hr. set (i := (- Z.of_nat (List.length (x :: b)))%Z).
  pose proof (record_at E (q, a ++ x :: b, u) v (Some i) stem suffix name subdir pre w q' r Hs Hr) as H. cbv beta iota zeta in H.
  assert (Hp : insert_pos i (List.length (a ++ x :: b)) = List.length a).
  { rewrite app_length. unfold i. cbn [List.length]. zcases. }
  assert (Hq : list_pos i (S (List.length (a ++ x :: b))) = Some (List.length (a ++ [r]))).
  { rewrite !app_length. unfold i. cbn [List.length]. zcases. }
  rewrite Hq, Hp in H. destruct (first_skip_app a (x :: b)) as [Hf Hk]. rewrite Hf, Hk in H.
  destruct (H (a ++ [r]) x b) as (res & x' & H1 & H2); [rewrite <- app_assoc; reflexivity|reflexivity|].
  exists res, x'. split; [exact H1|]. rewrite H2, <- app_assoc. reflexivity.
Qed.
(** With an index outside of that range the value is inserted at an end and IndexError follows (at -len-1 the options
    do go to the value). *)
Theorem C42_out_of_range : forall E q items unused v i stem suffix name subdir pre w q' r,
  is_storable E v = true -> seq_make_record q v = (q', r) ->
  ((i > Z.of_nat (List.length items))%Z -> seq_record E (q, items, unused) v (Some i) stem suffix name subdir pre w = (Ok (Exn IndexError, (q', items ++ [r], unused)), w)) /\
  ((i < - Z.of_nat (List.length items) - 1)%Z -> seq_record E (q, items, unused) v (Some i) stem suffix name subdir pre w = (Ok (Exn IndexError, (q', r :: items, unused)), w)) /\
  ((i = - Z.of_nat (List.length items) - 1)%Z -> exists res r', edited stem suffix name subdir pre r res r' /\
     seq_record E (q, items, unused) v (Some i) stem suffix name subdir pre w = (Ok (res, (q', r' :: items, unused)), w)).
Proof.
  intros E q items u v i stem suffix name subdir pre w q' r Hs Hr.
  pose proof (record_at E (q, items, u) v (Some i) stem suffix name subdir pre w q' r Hs Hr) as H. cbv beta iota zeta in H.
  split; [|split]; intros Hi.
  - assert (Hp : insert_pos i (List.length items) = List.length items) by zcases.
    assert (Hq : list_pos i (S (List.length items)) = None) by zcases. rewrite Hq, Hp, firstn_all, skipn_all in H. exact H.
  - assert (Hp : insert_pos i (List.length items) = 0) by zcases.
    assert (Hq : list_pos i (S (List.length items)) = None) by zcases. rewrite Hq, Hp in H. exact H.
  - assert (Hp : insert_pos i (List.length items) = 0) by zcases.
    assert (Hq : list_pos i (S (List.length items)) = Some 0) by zcases. rewrite Hq, Hp in H. apply (H [] r items); reflexivity.
Qed.
Example C42_example : forall w,
  let E := ex_env "auto" false None in
  let old := ORec (OLeaf 0 ($"old")) (auto_target []) false None None in
  is_storable E (OLeaf 0 ($"new")) = true /\
  seq_record E (mkSeq false [] false None, [old], []) (OLeaf 0 ($"new")) (Some (-1)%Z) (Some ($"name")) None None [] false w =
  (Ok (Ok (OAtom ANone), (mkSeq false [] false None,
     [ORec (OLeaf 0 ($"new")) (auto_target []) false None None;
      ORec (OLeaf 0 ($"old")) (mkTarget (Some []) (Some ($"name")) None) false None None], [])), w).
Proof. intros w E old. split; vm_compute; reflexivity. Qed.

(** ** C63 *)
(** The record of an item whose file is found to be missing keeps that finding when a new value is assigned: with
    cleaning on, the assignment itself looks for the file. *)
Lemma missing_exists c t pre we ty : rec_exists (ORec c t pre we (Some (EMark (mkMark MNoFile ty)))) = false.
Proof. reflexivity. Qed.
Lemma kept_count E F cx s : s_clean E = true -> forall w its w', mapM (ser_item E F cx) s w = (Ok its, w') ->
  map (fun x => match snd x with Some _ => true | None => false end) its = map rec_exists s.
Proof.
  intros Hc. induction s as [|o s IH]; intros w its w' H; cbn [mapM] in H.
  - inversion H; subst. reflexivity.
  - apply mbind_ok in H as ([o' p] & w1 & H1 & H2). apply mbind_ok in H2 as (ys & w2 & H2 & H3). inversion H3; subst. cbn [map snd]. rewrite (IH _ _ _ H2). f_equal.
    unfold ser_item in H1. destruct o as [| | | | | | |c t pr we re| | |]; try (apply mbind_ok in H1 as ([x y] & w3 & _ & H4); inversion H4; subst; reflexivity).
    rewrite Hc in H1. cbn [negb orb] in H1. destruct (rec_exists (ORec c t pr we re)).
    + apply mbind_ok in H1 as ([x y] & w3 & _ & H4); inversion H4; subst; reflexivity.
    + inversion H1; subst. reflexivity.
Qed.
Lemma kept_length its : List.length (kept its) = List.length (filter (fun b => b) (map (fun x : obj * option pser => match snd x with Some _ => true | None => false end) its)).
Proof. induction its as [|[o [p|]] its IH]; cbn; [reflexivity|f_equal; exact IH|exact IH]. Qed.
(** Assigning a storable value to the item whose file is missing succeeds; reading the item then gives the value; but
    what the next serialization of the list writes has no entry for it: of the items, exactly those before and after it
    that are not known to be missing are written. *)
Theorem C63_assigned_value_dropped : forall E n q a b unused ty t base ucx tgt pre we re v w w1,
  let old := ORec (OUnloaded ty t base ucx) tgt pre we re in
  s_clean E = true -> is_storable E v = true -> plain v ->
  ctx_read E (depth E n) ucx t ty w = (Ok (OMark (mkMark MNoFile ty)), w1) ->
  exists new unused',
    seq_set E n (q, a ++ old :: b, unused) (Z.of_nat (List.length a)) v w = (Ok (Ok (OAtom ANone), (q, a ++ new :: b, unused')), w1) /\
    seq_get E n (q, a ++ new :: b, unused') (Z.of_nat (List.length a)) w1 = (Ok (Ok v, (q, a ++ new :: b, unused')), w1) /\
    forall F cx w2 o p w3, ser_seq E F cx q (a ++ new :: b) unused' w2 = (Ok (o, PDict p), w3) ->
      exists l, get "store" p = Some (PList l) /\ List.length l = List.length (filter rec_exists (a ++ b)).
Proof.
  intros E n q a b u ty t base ucx tgt pre we re v w w1 old Hc Hs Hv Hr.
  assert (Hi : list_pos (Z.of_nat (List.length a)) (List.length (a ++ old :: b)) = Some (List.length a)) by (rewrite app_length; cbn [List.length]; zcases).
  set (new := ORec v tgt pre we (Some (EMark (mkMark MNoFile ty)))).
  assert (Hi' : list_pos (Z.of_nat (List.length a)) (List.length (a ++ new :: b)) = Some (List.length a)) by (rewrite app_length; cbn [List.length]; zcases).
  assert (Hm : in_memory new) by exact Hv.
  exists new. eexists. split; [|split].
  - unfold seq_set. rewrite Hi. replace (Z.of_nat (List.length a) <? Z.of_nat (List.length (a ++ old :: b)))%Z with true by (symmetry; apply Z.ltb_lt; rewrite app_length; cbn [List.length]; lia).
    rewrite nth_error_mid. unfold old. unfold over. rewrite Hs, Hc. unfold content_of, rec_load. unfold mbind. rewrite Hr. cbn [ret]. unfold ret. unfold seq_wrap. cbn [is_storable sto_name].
    rewrite set_nth_app. reflexivity.
  - unfold seq_get. rewrite Hi', nth_error_mid. unfold mbind. rewrite content_memory by exact Hm. cbn [fst snd seen]. rewrite set_nth_app. reflexivity.
  - intros F cx w2 o p w3 H. unfold ser_seq in H. apply mbind_ok in H as (x & wa & _ & H). apply mbind_ok in H as (its & wb & Hits & H). apply mbind_ok in H as (y & wc & _ & H).
    exists (kept its). split.
    + unfold ret in H. injection H as _ <- _. destruct (q_runs q) as [[[stem m] ss]|]; [destruct ss|]; reflexivity.
    + rewrite kept_length, (kept_count E F cx _ Hc _ _ _ Hits), map_app. cbn [map]. rewrite !filter_app. cbn [filter]. replace (rec_exists new) with false by reflexivity.
      rewrite !app_length. clear. f_equal; induction a + induction b; cbn; try reflexivity; destruct (rec_exists _); cbn; congruence.
Qed.
Example C63_example :
  let E := ex_env "auto" false None in
  let t := mkTarget (Some []) (Some ($"gone")) (Some ($".bin")) in
  let q := mkSeq false [] false None in
  let old := ORec (OUnloaded (Some ($"_sto__blob")) t ($"/proj/.dman/gen/k") (mkCtx 0 [])) t false None None in
  s_clean E = true /\ is_storable E (blob "new") = true /\ plain (blob "new") /\
  fst (ctx_read E (depth E 3) (mkCtx 0 []) t (Some ($"_sto__blob")) ex_two) = Ok (OMark (mkMark MNoFile (Some ($"_sto__blob")))) /\
  fst ((x <- seq_set E 3 (q, [OAtom (AInt 1); old], []) 1 (blob "new");;
        let '(q, s, u) := snd x in y <- ser_seq E (depth E 3) (Some (mkCtx 0 [])) q s u;; ret (snd y)) ex_two) =
  Ok (PDict [(key "store", PList [PAtom (AInt 1)])]).
Proof. intros E t q old. split; [reflexivity|]. split; [reflexivity|]. split; [exact I|]. split; vm_compute; reflexivity. Qed.

Print Assumptions C37_like_a_list.
Print Assumptions C37_options_kept.
Print Assumptions C38_order.
Print Assumptions C38_like_a_dict.
Print Assumptions C39_never_reused.
Print Assumptions C39_next_number.
Print Assumptions C39_counter_saved.
Print Assumptions C39_clear_restarts.
Print Assumptions C42_edits_inserted.
Print Assumptions C42_negative_edits_other.
Print Assumptions C42_out_of_range.
Print Assumptions C63_assigned_value_dropped.
