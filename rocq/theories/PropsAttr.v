(** C98: fields of a modelclass and attributes with an underscore; the records [get_record] does not find. *)
From Coq Require Import Ascii String List Bool Arith Lia.
From Verif Require Import Base AttrModel.
Import ListNotations.

(** * The specification *)
Section Spec.
Variable fields : list (str * kind).
Definition is_rec (x : str) : Prop := kind_of fields x = Some KRec.
Definition wrapped (x : str) : Prop := is_rec x \/ kind_of fields x = Some KConv.
(** Names that are kept in one place: a name and itself, a field with a descriptor and its name with an underscore. *)
Definition same_place (x y : str) : Prop :=
  x = y \/ (wrapped x /\ ~ wrapped y /\ y = $"_" ++ x) \/ (wrapped y /\ ~ wrapped x /\ x = $"_" ++ y).
(** The last assignment in a program to one of several names: to [y], of [v]. *)
Definition last_to (P : str -> Prop) (l : list op) (y : str) (v : value) : Prop :=
  exists a b, l = a ++ Set_ y v :: b /\ P y /\ forall z w, In (Set_ z w) b -> ~ P z.
Definition none_to (P : str -> Prop) (l : list op) : Prop := forall z w, In (Set_ z w) l -> ~ P z.
Definition storable (v : value) : Prop := exists n, v = VStor n.
Definition is_data (v : value) : Prop := forall r, v <> VRec r.
(** Names that are not of the form the functions for records use. *)
Definition ordinary (x : str) : Prop := forall c k, x <> $"__record__" ++ c :: k /\ $"_" ++ x <> $"__record__" ++ c :: k.
(** Programs: assigned values are no records, names are ordinary. *)
Definition ok_op (o : op) : Prop :=
  match o with Get x => ordinary x | Set_ x v => ordinary x /\ is_data v | GetRecord _ _ _ => True | SetRecord _ _ v => is_data v end.
(** Classes: the private name of a field with a descriptor is no such field; defaults of the class are no records and have
    ordinary names. *)
Definition ok_class (cattr : table) : Prop :=
  (forall x, wrapped x -> ~ wrapped ($"_" ++ x)) /\ (forall x v, cattr x = Some v -> is_data v) /\
  forall c k, cattr ($"__record__" ++ c :: k) = None.
End Spec.

(** * The model meets it *)
Section Proof.
Variable fields : list (str * kind).
Variable cattr : table.
Hypothesis OK : ok_class fields cattr.
Notation kind_of := (kind_of fields).
Notation get := (get fields cattr).
Notation set := (set fields cattr).
Notation lookup := (lookup cattr).
Notation run := (run fields cattr).
Notation step := (step fields cattr).

Definition recb (x : str) : bool := match kind_of x with Some KRec => true | _ => false end.
Definition wrapb (x : str) : bool := match kind_of x with Some KRec | Some KConv => true | _ => false end.
Lemma recb_iff x : recb x = true <-> is_rec fields x.
Proof. unfold recb, is_rec. destruct (kind_of x) as [[]|]; split; intros H; congruence. Qed.
Lemma wrapb_iff x : wrapb x = true <-> wrapped fields x.
Proof. unfold wrapb, wrapped, is_rec. destruct (kind_of x) as [[]|]; split; intros H; auto; try discriminate; destruct H; discriminate. Qed.
Definition place (x : str) : str := if wrapb x then private x else x.
Lemma rec_place x : recb x = true -> place x = private x.
Proof. unfold recb, place, wrapb. destruct (kind_of x) as [[]|]; congruence. Qed.
Lemma rec_wrap x : recb x = true -> wrapb x = true.
Proof. unfold recb, wrapb. destruct (kind_of x) as [[]|]; congruence. Qed.
Lemma same_place_iff x y : place x = place y <-> same_place fields x y.
Proof.
  unfold place, same_place, private. rewrite <- !wrapb_iff. change ($"_" ++ x) with ("_"%char :: x). change ($"_" ++ y) with ("_"%char :: y).
  destruct (wrapb x) eqn:X, (wrapb y) eqn:Y; split; intros H.
  - injection H as H. now left.
  - destruct H as [->|[(_ & H & _)|(_ & H & _)]]; [reflexivity|now elim H|now elim H].
  - right. left. repeat split; [discriminate|congruence].
  - destruct H as [->|[(_ & _ & H)|(H & _)]]; [congruence|congruence|discriminate].
  - right. right. repeat split; [discriminate|congruence].
  - destruct H as [->|[(H & _)|(_ & _ & H)]]; [congruence|discriminate|congruence].
  - now left.
  - destruct H as [->|[(H & _)|(H & _)]]; [reflexivity|discriminate|discriminate].
Qed.

(** The last assignment, computed. *)
Fixpoint lastf (P : str -> bool) (l : list op) : option (str * value) :=
  match l with
  | [] => None
  | Set_ y v :: r => match lastf P r with Some z => Some z | None => if P y then Some (y, v) else None end
  | _ :: r => lastf P r
  end.
Lemma lastf_snoc P l o : lastf P (l ++ [o]) =
  match o with Set_ y v => if P y then Some (y, v) else lastf P l | _ => lastf P l end.
Proof.
  induction l as [|[x|x v|c k d|c k v] l IH]; cbn; try exact IH.
  - destruct o; reflexivity.
  - rewrite IH. destruct o as [z|z u|c k d|c k u]; try reflexivity. destruct (P z); reflexivity.
Qed.
Lemma lastf_none P l : lastf P l = None <-> none_to (fun y => P y = true) l.
Proof.
  induction l as [|[x|x v|c k d|c k v] l IH]; cbn.
  - split; [intros _ z w []|reflexivity].
  - rewrite IH. split; intros H z w G; [destruct G as [G|G]; [discriminate|eauto]|apply (H z w); now right].
  - destruct (lastf P l) as [z|]; split.
    + discriminate.
    + intros H. exfalso. assert (X : Some z = None); [|discriminate]. apply IH. intros a w G. apply (H a w). now right.
    + intros E. destruct (P x) eqn:Px; [discriminate|]. intros z w [G|G]; [injection G as <- <-; congruence|]. now apply (proj1 IH eq_refl z w).
    + intros H. destruct (P x) eqn:Px; [|reflexivity]. exfalso. apply (H x v); [now left|exact Px].
  - rewrite IH. split; intros H z w G; [destruct G as [G|G]; [discriminate|eauto]|apply (H z w); now right].
  - rewrite IH. split; intros H z w G; [destruct G as [G|G]; [discriminate|eauto]|apply (H z w); now right].
Qed.
Lemma lastf_some P l : forall y v, last_to (fun y => P y = true) l y v -> lastf P l = Some (y, v).
Proof.
  intros y v (a & b & -> & Py & H). induction a as [|o a IH]; cbn.
  - rewrite (proj2 (lastf_none P b) H). now rewrite Py.
  - destruct o; try exact IH. now rewrite IH.
Qed.
Lemma none_ext P Q l : (forall y, P y <-> Q y) -> none_to P l -> none_to Q l.
Proof. intros E H z w G A. apply E in A. exact (H z w G A). Qed.
Lemma last_ext P Q l y v : (forall y, P y <-> Q y) -> last_to P l y v -> last_to Q l y v.
Proof. intros E (a & b & -> & A & H). exists a, b. split; [reflexivity|]. split; [now apply E|]. exact (none_ext P Q b E H). Qed.

Definition atb (p y : str) : bool := if str_eq_dec (place y) p then true else false.
Definition eqb (x y : str) : bool := if str_eq_dec y x then true else false.
Definition storb (v : value) : bool := match v with VStor _ => true | _ => false end.
Definition reserved (p : str) : Prop := exists c k, p = $"__record__" ++ c :: k.

(** What a place or an entry of the table has when [v] was assigned. *)
Definition has (i : inst) (boxed : bool) (v : value) (w : option value) : Prop :=
  if boxed then exists r, w = Some (VRec r) /\ r < i_next i /\ i_heap i r = v else w = Some v.

Record Inv (l : list op) (i : inst) : Prop := {
  inv_place : forall p, ~ reserved p ->
    match lastf (atb p) l with None => i_attrs i p = None | Some (y, v) => has i (recb y && storb v) v (i_attrs i p) end;
  inv_res : forall p v, reserved p -> i_attrs i p = Some v -> is_data v;
  inv_data : forall p y v, lastf p l = Some (y, v) -> is_data v;
  inv_records : forall x, if recb x then
      match lastf (eqb x) l with None => i_records i x = None | Some (_, v) => has i (storb v) v (i_records i x) end
    else i_records i x = None;
  inv_attr_rec : forall p r, i_attrs i p = Some (VRec r) ->
    r < i_next i /\ exists x, recb x = true /\ p = private x /\ i_records i x = Some (VRec r);
  inv_rec_attr : forall x p r, i_records i x = Some (VRec r) -> i_attrs i p = Some (VRec r) -> p = private x;
  inv_rec_rec : forall x y r, i_records i x = Some (VRec r) -> i_records i y = Some (VRec r) -> x = y;
  inv_rec_next : forall x r, i_records i x = Some (VRec r) -> r < i_next i }.

Lemma inv_new : Inv [] new_inst.
Proof. constructor; cbn; intros; try discriminate; try reflexivity. destruct (recb x); reflexivity. Qed.

Lemma tset_same t k v : tset t k v k = Some v.
Proof. unfold tset. destruct (str_eq_dec k k); congruence. Qed.
Lemma tset_other t k v x : x <> k -> tset t k v x = t x.
Proof. unfold tset. destruct (str_eq_dec x k); congruence. Qed.

Lemma data_last P l o : (forall p y v, lastf p l = Some (y, v) -> is_data v) -> ok_op o -> forall y v, lastf P (l ++ [o]) = Some (y, v) -> is_data v.
Proof.
  intros D O y v. rewrite lastf_snoc. destruct o as [x|x w|c k d|c k w]; try apply D. cbn in O.
  destruct (P x); [|apply D]. intros [= <- <-]. apply O.
Qed.

Lemma place_ordinary x : ordinary x -> ~ reserved (place x).
Proof. intros O (c & k & E). destruct (O c k) as [A B]. unfold place in E. destruct (wrapb x); [apply B|apply A]; exact E. Qed.

(** Assigning [v] as it is at the place of [x]. *)
Lemma inv_plain_set l i x v i2 : Inv l i -> ordinary x -> is_data v -> recb x && storb v = false ->
  i_attrs i2 = tset (i_attrs i) (place x) v -> i_heap i2 = i_heap i -> i_next i2 = i_next i ->
  i_records i2 = (if recb x then tset (i_records i) x v else i_records i) -> Inv (l ++ [Set_ x v]) i2.
Proof.
  intros I O D B EA EH EN ER. destruct I as [I1 I2 I3 I4 I5 I6 I7 I8].
  assert (Hhas : forall b u w, has i2 b u w <-> has i b u w) by (intros; unfold has; rewrite EH, EN; reflexivity).
  constructor.
  - intros p R. rewrite lastf_snoc. unfold atb at 1. destruct (str_eq_dec (place x) p) as [<-|N].
    + rewrite B. cbn. rewrite EA. apply tset_same.
    + rewrite EA, tset_other by congruence. specialize (I1 p R). destruct (lastf (atb p) l) as [[y u]|]; [apply (proj2 (Hhas _ _ _))|]; exact I1.
  - intros p u R. rewrite EA. destruct (str_eq_dec p (place x)) as [->|N]; [|rewrite tset_other by exact N; now apply I2].
    exfalso. exact (place_ordinary _ O R).
  - intros p0 y0 v0 H0. refine (data_last _ _ _ I3 (conj O D : ok_op (Set_ _ _)) _ _ H0).
  - intros y. rewrite lastf_snoc. unfold eqb at 1. destruct (recb y) eqn:Ry.
    + destruct (str_eq_dec x y) as [->|N].
      * rewrite Ry in *. cbn in B. rewrite B. cbn. rewrite ER. apply tset_same.
      * assert (E : i_records i2 y = i_records i y) by (rewrite ER; destruct (recb x); [apply tset_other; congruence|reflexivity]).
        rewrite E. specialize (I4 y). rewrite Ry in I4. destruct (lastf (eqb y) l) as [[z u]|]; [apply (proj2 (Hhas _ _ _))|]; exact I4.
    + rewrite ER. specialize (I4 y). rewrite Ry in I4. destruct (recb x) eqn:Rx; [rewrite tset_other; [exact I4|congruence]|exact I4].
  - intros p r. rewrite EA, EN. destruct (str_eq_dec p (place x)) as [->|N].
    + rewrite tset_same. intros [= ->]. exfalso. exact (D r eq_refl).
    + rewrite tset_other by exact N. intros H. destruct (I5 _ _ H) as (A & y & Y1 & Y2 & Y3). split; [exact A|]. exists y. split; [exact Y1|]. split; [exact Y2|].
      rewrite ER. destruct (recb x) eqn:Rx; [|exact Y3]. rewrite tset_other; [exact Y3|]. intros ->. apply N. rewrite Y2. symmetry. now apply rec_place.
  - intros y p r. rewrite EA. destruct (str_eq_dec p (place x)) as [->|N].
    + rewrite tset_same. intros _ [= ->]. exfalso. exact (D r eq_refl).
    + rewrite tset_other by exact N. rewrite ER. destruct (recb x); [|apply I6]. destruct (str_eq_dec y x) as [->|M]; [|rewrite tset_other by exact M; apply I6].
      rewrite tset_same. intros [= ->]. exfalso. exact (D r eq_refl).
  - intros y z r. rewrite ER. destruct (recb x); [|apply I7].
    destruct (str_eq_dec y x) as [->|M]; [rewrite tset_same; intros [= ->]; exfalso; exact (D r eq_refl)|].
    destruct (str_eq_dec z x) as [->|M2]; [rewrite (tset_same _ x); intros _ [= ->]; exfalso; exact (D r eq_refl)|].
    rewrite !tset_other by assumption. apply I7.
  - intros y r. rewrite ER, EN. destruct (recb x); [|apply I8].
    destruct (str_eq_dec y x) as [->|M]; [rewrite tset_same; intros [= ->]; exfalso; exact (D r eq_refl)|]. rewrite tset_other by assumption. apply I8.
Qed.

Lemma private_inj x y : private x = private y -> x = y.
Proof. now intros [= H]. Qed.

Lemma inv_set l i x v : Inv l i -> ordinary x -> is_data v -> Inv (l ++ [Set_ x v]) (set i x v).
Proof.
  intros I O D. destruct (recb x && storb v) eqn:B.
  2:{ apply (inv_plain_set l i x v); auto; unfold AttrModel.set, recb, place, wrapb in *;
      destruct (kind_of x) as [[]|]; try reflexivity; destruct v; try reflexivity; discriminate. }
  apply andb_true_iff in B as [Rx Sv]. assert (Kx : kind_of x = Some KRec) by (apply recb_iff; exact Rx).
  unfold AttrModel.set. rewrite Kx. destruct v as [| | n |]; try discriminate. clear Sv.
  destruct OK as (_ & Cd & _).
  assert (Case : (exists r, i_attrs i (private x) = Some (VRec r) /\ lookup i (private x) = Some (VRec r)) \/
                 (forall r, i_attrs i (private x) <> Some (VRec r)) /\ forall r, lookup i (private x) <> Some (VRec r)).
  { unfold AttrModel.lookup. destruct (i_attrs i (private x)) as [[| | |r]|] eqn:E; eauto; right; split; try congruence.
    intros r H. exact (Cd _ _ H r eq_refl). }
  pose proof I as [I1 I2 I3 I4 I5 I6 I7 I8].
  destruct Case as [(r & A & L)|[NA NL]].
  - rewrite L. destruct (I5 _ _ A) as (Ar & y & Y1 & Y2 & Y3). apply private_inj in Y2 as <-.
    constructor; cbn [i_attrs i_records i_heap i_next].
    + intros p R. rewrite lastf_snoc. unfold atb at 1. rewrite (rec_place x Rx). destruct (str_eq_dec (private x) p) as [<-|N].
      * rewrite Rx. cbn. exists r. rewrite Nat.eqb_refl. auto.
      * specialize (I1 p R). destruct (lastf (atb p) l) as [[y u]|]; [|exact I1]. unfold has in *. destruct (recb y && storb u); [|exact I1].
        destruct I1 as (q & Q1 & Q2 & Q3). exists q. split; [exact Q1|]. split; [exact Q2|]. cbn [i_heap].
        destruct (q =? r) eqn:Eq; [|exact Q3]. apply Nat.eqb_eq in Eq as ->. exfalso. apply N. symmetry. exact (I6 x p r Y3 Q1).
    + exact I2.
    + intros p0 y0 v0 H0. refine (data_last _ _ _ I3 (conj O D : ok_op (Set_ _ _)) _ _ H0).
    + intros y. rewrite lastf_snoc. unfold eqb at 1. specialize (I4 y). destruct (recb y) eqn:Ry; [|exact I4].
      destruct (str_eq_dec x y) as [<-|N].
      * cbn. exists r. rewrite Nat.eqb_refl. auto.
      * destruct (lastf (eqb y) l) as [[z u]|]; [|exact I4]. unfold has in *. destruct (storb u); [|exact I4].
        destruct I4 as (q & Q1 & Q2 & Q3). exists q. split; [exact Q1|]. split; [exact Q2|]. cbn [i_heap].
        destruct (q =? r) eqn:Eq; [|exact Q3]. apply Nat.eqb_eq in Eq as ->. exfalso. apply N. exact (I7 _ _ _ Y3 Q1).
    + exact I5.
    + exact I6.
    + exact I7.
    + exact I8.
  - set (i2 := mkInst (tset (i_attrs i) (private x) (VRec (i_next i))) (tset (i_records i) x (VRec (i_next i)))
                 (fun q => if q =? i_next i then VStor n else i_heap i q) (S (i_next i))).
    assert (G : Inv (l ++ [Set_ x (VStor n)]) i2).
    { assert (F : forall b u w, has i b u w -> has i2 b u w).
      { intros b u w. unfold has. destruct b; [|auto]. intros (q & Q1 & Q2 & Q3). exists q. split; [exact Q1|]. cbn.
        split; [lia|]. destruct (q =? i_next i) eqn:Eq; [apply Nat.eqb_eq in Eq; lia|exact Q3]. }
      assert (Hnew : has i2 true (VStor n) (Some (VRec (i_next i)))).
      { exists (i_next i). cbn. rewrite Nat.eqb_refl. auto. }
      assert (NR : forall y, i_records i y <> Some (VRec (i_next i))) by (intros y H; apply I8 in H; lia).
      assert (NP : forall p, i_attrs i p <> Some (VRec (i_next i))) by (intros p H; apply I5 in H as [H _]; lia).
      constructor; subst i2; cbn [i_attrs i_records i_heap i_next].
      - intros p R. rewrite lastf_snoc. unfold atb at 1. rewrite (rec_place x Rx). destruct (str_eq_dec (private x) p) as [<-|N].
        + rewrite Rx. cbn [storb andb]. rewrite tset_same. exact Hnew.
        + rewrite tset_other by congruence. specialize (I1 p R). destruct (lastf (atb p) l) as [[y u]|]; [apply F|]; exact I1.
      - intros p u R. destruct (str_eq_dec p (private x)) as [->|N]; [|rewrite tset_other by exact N; now apply I2].
        exfalso. apply (place_ordinary _ O). rewrite (rec_place x Rx). exact R.
      - intros p0 y0 v0 H0. refine (data_last _ _ _ I3 (conj O D : ok_op (Set_ _ _)) _ _ H0).
      - intros y. rewrite lastf_snoc. unfold eqb at 1. specialize (I4 y). destruct (recb y) eqn:Ry.
        + destruct (str_eq_dec x y) as [<-|N]; [rewrite tset_same; exact Hnew|]. rewrite tset_other by congruence.
          destruct (lastf (eqb y) l) as [[z u]|]; [apply F|]; exact I4.
        + rewrite tset_other by congruence. exact I4.
      - intros p r. destruct (str_eq_dec p (private x)) as [->|N].
        + rewrite tset_same. intros [= <-]. split; [lia|]. exists x. rewrite tset_same. auto.
        + rewrite tset_other by exact N. intros H. destruct (I5 _ _ H) as (A & y & Y1 & Y2 & Y3). split; [lia|]. exists y.
          split; [exact Y1|]. split; [exact Y2|]. rewrite tset_other; [exact Y3|]. intros ->. congruence.
      - intros y p r. destruct (str_eq_dec y x) as [->|M].
        + rewrite tset_same. intros [= <-]. destruct (str_eq_dec p (private x)) as [->|N]; [reflexivity|]. rewrite tset_other by exact N. intros H. now apply NP in H.
        + rewrite tset_other by exact M. destruct (str_eq_dec p (private x)) as [->|N]; [|rewrite tset_other by exact N; apply I6].
          rewrite tset_same. intros H [= <-]. now apply NR in H.
      - intros y z r. destruct (str_eq_dec y x) as [->|M]; destruct (str_eq_dec z x) as [->|M2]; [reflexivity| | |].
        + rewrite tset_same, tset_other by exact M2. intros [= <-] H. now apply NR in H.
        + rewrite tset_same, tset_other by exact M. intros H [= <-]. now apply NR in H.
        + rewrite !tset_other by assumption. apply I7.
      - intros y r. destruct (str_eq_dec y x) as [->|M]; [rewrite tset_same; intros [= <-]; lia|]. rewrite tset_other by exact M. intros H. apply I8 in H. lia. }
    destruct (lookup i (private x)) as [[| | |r]|] eqn:L; try exact G. exfalso. exact (NL _ eq_refl).
Qed.

Lemma run_snoc l : forall i o, snd (run i (l ++ [o])) = snd (step (snd (run i l)) o).
Proof.
  induction l as [|a l IH]; intros i o; cbn; [now destruct (step i o)|].
  destruct (step i a) as [u j]. specialize (IH j o). destruct (run j (l ++ [o])), (run j l). exact IH.
Qed.
Lemma reserved_not_private x : ordinary x -> forall c k, place x <> record_key c k.
Proof. intros O c k H. apply (place_ordinary _ O). exists c, k. exact H. Qed.

Lemma inv_run l : Forall ok_op l -> Inv l (snd (run new_inst l)).
Proof.
  induction l as [|o l IH] using rev_ind; intros F; [apply inv_new|]. apply Forall_app in F as [F1 F2]. inversion F2 as [|? ? Ho _]; subst.
  specialize (IH F1). rewrite run_snoc. set (i := snd (run new_inst l)) in *. clearbody i.
  destruct o as [x|x v|c k d|c k v]; cbn [AttrModel.step snd].
  - destruct IH. constructor; auto; intros; rewrite ?lastf_snoc in *; eauto. apply inv_place0; auto. apply inv_records0.
  - destruct Ho. now apply inv_set.
  - destruct IH. constructor; auto; intros; rewrite ?lastf_snoc in *; eauto. apply inv_place0; auto. apply inv_records0.
  - cbn in Ho. destruct IH. unfold set_record, set_attr. constructor; cbn [i_attrs i_records i_heap i_next]; auto; intros; rewrite ?lastf_snoc in *; eauto.
    + rewrite tset_other; [apply inv_place0; auto|]. intros ->. apply H. exists c, k. reflexivity.
    + destruct (str_eq_dec p (record_key c k)) as [->|N]; [rewrite tset_same in H0; injection H0 as <-; exact Ho|].
      rewrite tset_other in H0 by exact N. eauto.
    + apply inv_records0.
    + destruct (str_eq_dec p (record_key c k)) as [->|N]; [rewrite tset_same in H; injection H as H; exfalso; exact (Ho r H)|].
      rewrite tset_other in H by exact N. eauto.
    + destruct (str_eq_dec p (record_key c k)) as [->|N]; [rewrite tset_same in H0; injection H0 as H0; exfalso; exact (Ho r H0)|].
      rewrite tset_other in H0 by exact N. eauto.
Qed.

Lemma place_last l x : forall y v, last_to (same_place fields x) l y v -> lastf (atb (place x)) l = Some (y, v).
Proof.
  intros y v H. apply lastf_some. eapply last_ext; [|exact H]. intros z. rewrite <- same_place_iff. unfold atb.
  destruct (str_eq_dec (place z) (place x)); split; congruence.
Qed.
Lemma place_none l x : none_to (same_place fields x) l -> lastf (atb (place x)) l = None.
Proof.
  intros H. apply lastf_none. eapply none_ext; [|exact H]. intros z. rewrite <- same_place_iff. unfold atb.
  destruct (str_eq_dec (place z) (place x)); split; congruence.
Qed.
Lemma self_last l x v : last_to (eq x) l x v -> lastf (eqb x) l = Some (x, v).
Proof. intros H. apply lastf_some. eapply last_ext; [|exact H]. intros z. unfold eqb. destruct (str_eq_dec z x); split; congruence. Qed.
Lemma self_none l x : none_to (eq x) l -> lastf (eqb x) l = None.
Proof. intros H. apply lastf_none. eapply none_ext; [|exact H]. intros z. unfold eqb. destruct (str_eq_dec z x); split; congruence. Qed.
Lemma storb_iff v : storb v = true <-> storable v.
Proof. unfold storable. destruct v; cbn; split; intros H; try discriminate; eauto; destruct H; discriminate. Qed.
Lemma rec_same_place x y : wrapped fields x -> recb y = true -> same_place fields x y -> y = x.
Proof.
  intros W R [->|[(_ & N & _)|(_ & N & _)]]; [reflexivity| |]; exfalso; apply N; [|exact W]. apply wrapb_iff. now apply rec_wrap.
Qed.
Lemma get_place i x : get i x = match lookup i (place x) with
                                | Some (VRec r) => Ok (if recb x then i_heap i r else VRec r)
                                | Some v => Ok v
                                | None => Exn AttributeError
                                end.
Proof. unfold AttrModel.get, place, wrapb, recb. destruct (kind_of x) as [[]|]; destruct (lookup i _) as [[]|]; reflexivity. Qed.

Notation after l := (snd (run new_inst l)).

(** A field with a descriptor reads as what was assigned last to it or to its name with an underscore. *)
Theorem C98_field_reads : forall l x y v, Forall ok_op l -> ordinary x -> wrapped fields x ->
  last_to (same_place fields x) l y v -> get (after l) x = Ok v.
Proof.
  intros l x y v F O W H. assert (I := inv_run l F). assert (Hs : same_place fields x y) by (destruct H as (a & b & _ & H & _); exact H).
  apply place_last in H. assert (D := inv_data _ _ I _ _ _ H).
  assert (G := inv_place _ _ I (place x) (place_ordinary x O)). rewrite H in G. rewrite get_place. unfold AttrModel.lookup. unfold has in G.
  destruct (recb y && storb v) eqn:B.
  - destruct G as (r & -> & _ & G). apply andb_true_iff in B as [B _]. apply (rec_same_place x y W B) in Hs as ->. rewrite B. now rewrite G.
  - rewrite G. destruct v; try reflexivity. now elim (D r).
Qed.
(** Any other attribute reads as what was assigned last to it, or through the field whose private name it is; but if that was
    a storable, it reads as the record that has it. *)
Theorem C98_attribute_reads : forall l x y v, Forall ok_op l -> ordinary x -> ~ wrapped fields x ->
  last_to (same_place fields x) l y v ->
  (~ (is_rec fields y /\ storable v) -> get (after l) x = Ok v) /\
  (is_rec fields y /\ storable v -> exists r, get (after l) x = Ok (VRec r) /\ i_heap (after l) r = v /\ i_records (after l) y = Some (VRec r)).
Proof.
  intros l x y v F O W H. assert (I := inv_run l F). assert (Hs : same_place fields x y) by (destruct H as (a & b & _ & H & _); exact H).
  apply place_last in H. assert (D := inv_data _ _ I _ _ _ H).
  assert (G := inv_place _ _ I (place x) (place_ordinary x O)). rewrite H in G. rewrite get_place. unfold AttrModel.lookup. unfold has in G.
  assert (R : recb x = false).
  { destruct (recb x) eqn:E; [|reflexivity]. exfalso. apply W. apply wrapb_iff. now apply rec_wrap. }
  destruct (recb y && storb v) eqn:B.
  - apply andb_true_iff in B as [B1 B2]. apply recb_iff in B1 as B3. apply storb_iff in B2 as B4. split; [intros N; exfalso; apply N; now split|].
    intros _. destruct G as (r & A & _ & G). exists r. rewrite A, R. split; [reflexivity|]. split; [exact G|].
    destruct (inv_attr_rec _ _ I _ _ A) as (_ & z & Z1 & Z2 & Z3).
    apply same_place_iff in Hs. rewrite Hs, (rec_place y B1) in Z2. apply private_inj in Z2 as ->. exact Z3.
  - split.
    + intros _. rewrite G. destruct v; try reflexivity. now elim (D r).
    + intros [A1 A2]. apply recb_iff in A1. apply storb_iff in A2. rewrite A1, A2 in B. discriminate.
Qed.
(** Without an assignment there is the default of the class, if any. *)
Theorem C98_unassigned : forall l x p, Forall ok_op l -> ordinary x -> none_to (same_place fields x) l ->
  (wrapped fields x /\ p = $"_" ++ x) \/ (~ wrapped fields x /\ p = x) ->
  get (after l) x = match cattr p with Some v => Ok v | None => Exn AttributeError end.
Proof.
  intros l x p F O H Hp. assert (I := inv_run l F). apply place_none in H.
  assert (G := inv_place _ _ I (place x) (place_ordinary x O)). rewrite H in G. rewrite get_place. unfold AttrModel.lookup. rewrite G.
  assert (E : p = place x).
  { unfold place. rewrite <- wrapb_iff in Hp. destruct Hp as [[A ->]|[A ->]]; destruct (wrapb x); try reflexivity; congruence. }
  rewrite E.
  destruct (cattr (place x)) as [v|] eqn:C; [|reflexivity]. destruct OK as (_ & D & _). specialize (D _ _ C). destruct v; try reflexivity. now elim (D r).
Qed.

(** What is saved for a record field is what was assigned last to the field itself, whatever it reads as: as it is, or as
    the record that has it. Only after None or nothing it is what the field reads as. *)
Theorem C98_saved : forall l x v, Forall ok_op l -> ordinary x -> is_rec fields x -> last_to (eq x) l x v -> v <> VNone ->
  (~ storable v -> saved fields cattr (after l) x = Ok (Some v)) /\
  (storable v -> exists r, saved fields cattr (after l) x = Ok (Some (VRec r)) /\ i_heap (after l) r = v).
Proof.
  intros l x v F O R H N. assert (I := inv_run l F). apply self_last in H. assert (D := inv_data _ _ I _ _ _ H).
  assert (G := inv_records _ _ I x). rewrite (proj2 (recb_iff x) R), H in G. unfold has in G. unfold saved. destruct (storb v) eqn:S.
  - split; [intros A; exfalso; apply A; now apply storb_iff|]. intros _. destruct G as (r & -> & _ & G). exists r. split; [reflexivity|exact G].
  - split; [|intros A; apply storb_iff in A; congruence]. intros _. rewrite G. destruct v; try reflexivity; congruence.
Qed.
Theorem C98_saved_as_read : forall l x, Forall ok_op l -> ordinary x ->
  ~ is_rec fields x \/ none_to (eq x) l \/ last_to (eq x) l x VNone ->
  saved fields cattr (after l) x = (do v <- get (after l) x; Ok (match v with VNone => None | _ => Some v end)).
Proof.
  intros l x F O H. assert (I := inv_run l F). assert (G := inv_records _ _ I x). unfold saved.
  destruct (recb x) eqn:R; [|now rewrite G]. apply recb_iff in R as R'. destruct H as [H|[H|H]]; [contradiction| |].
  - apply self_none in H. rewrite H in G. now rewrite G.
  - apply self_last in H. rewrite H in G. cbn in G. now rewrite G.
Qed.

(** If no name is the private name of a field with a descriptor, fields are plain attributes: each reads as what was assigned
    to it last, and this is saved. *)
Theorem C98_no_clash : forall l x v, Forall ok_op l -> ordinary x ->
  (forall y z w, wrapped fields y -> z = $"_" ++ y -> ~ In (Set_ z w) l /\ x <> z) ->
  last_to (eq x) l x v -> get (after l) x = Ok v /\
  ((v = VNone /\ saved fields cattr (after l) x = Ok None) \/
   (v <> VNone /\ exists s, saved fields cattr (after l) x = Ok (Some s) /\
      (s = v \/ exists r, s = VRec r /\ i_heap (after l) r = v))).
Proof.
  intros l x v F O C H.
  assert (L : last_to (same_place fields x) l x v).
  { destruct H as (a & b & -> & _ & H). exists a, b. split; [reflexivity|]. split; [now left|]. intros z w Hz [->|[(W & _ & E)|(W & _ & E)]].
    - exact (H z w Hz eq_refl).
    - apply (proj1 (C x z w W E)). apply in_or_app. right. now right.
    - apply (proj2 (C z x w W E)). reflexivity. }
  assert (G : get (after l) x = Ok v).
  { destruct (wrapb x) eqn:W.
    - apply wrapb_iff in W. exact (C98_field_reads l x x v F O W L).
    - assert (NW : ~ wrapped fields x) by (rewrite <- wrapb_iff; congruence). apply (proj1 (C98_attribute_reads l x x v F O NW L)).
      intros [R _]. apply NW. now left. }
  split; [exact G|]. assert (V : v = VNone \/ v <> VNone) by (destruct v; auto; right; discriminate). destruct V as [->|V].
  - left. split; [reflexivity|]. rewrite (C98_saved_as_read l x F O) by (right; right; exact H). now rewrite G.
  - right. split; [exact V|]. destruct (recb x) eqn:R.
    + apply recb_iff in R. destruct (C98_saved l x v F O R H V) as [A B]. destruct (storb v) eqn:S.
      * destruct (B (proj1 (storb_iff v) S)) as (r & B1 & B2). exists (VRec r). split; [exact B1|]. right. exists r. now split.
      * exists v. split; [|now left]. apply A. rewrite <- storb_iff. congruence.
    + exists v. split; [|now left]. rewrite (C98_saved_as_read l x F O); [rewrite G; cbn; destruct v; try reflexivity; congruence|].
      left. rewrite <- recb_iff. congruence.
Qed.

(** [get_record] finds exactly what [set_record] put there, never the record of a field. *)
Theorem C98_get_record : forall l c k d, Forall ok_op l ->
  (forall v, ~ In (SetRecord c k v) l) ->
  get_record cattr (after l) c k d = match d with Some v => Ok v | None => Exn AttributeError end.
Proof.
  intros l c k d F N.
  assert (G : i_attrs (after l) (record_key c k) = None).
  { induction l as [|o l IH] using rev_ind; [reflexivity|]. apply Forall_app in F as [F1 F2]. inversion F2 as [|? ? Ho _]; subst.
    assert (N1 : forall v, ~ In (SetRecord c k v) l) by (intros v H; apply (N v); apply in_or_app; now left).
    specialize (IH F1 N1). rewrite run_snoc. set (i := after l) in *. clearbody i.
    destruct o as [x|x v|c2 k2 d2|c2 k2 v]; cbn [AttrModel.step snd]; try exact IH.
    - destruct Ho as [O _]. assert (P := reserved_not_private x O c k).
      unfold AttrModel.set, set_attr, place, wrapb in *. destruct (kind_of x) as [[]|] eqn:K; cbn [i_attrs].
      + destruct v; cbn [i_attrs]; try (rewrite tset_other by congruence; exact IH).
        destruct (lookup i (private x)) as [[]|]; cbn [i_attrs]; try (rewrite tset_other by congruence; exact IH). exact IH.
      + rewrite tset_other by congruence. exact IH.
      + rewrite tset_other by congruence. exact IH.
      + rewrite tset_other by congruence. exact IH.
    - unfold set_record, set_attr. cbn [i_attrs]. rewrite tset_other; [exact IH|]. intros E. unfold record_key in E. cbn in E. injection E as -> ->.
      apply (N v). apply in_or_app. right. now left. }
  unfold get_record, AttrModel.lookup. rewrite G. destruct OK as (_ & _ & C). unfold record_key. rewrite C. reflexivity.
Qed.
Theorem C98_set_record : forall l a b c k v d, l = a ++ SetRecord c k v :: b -> Forall ok_op l -> (forall w, ~ In (SetRecord c k w) b) ->
  get_record cattr (after l) c k d = Ok v.
Proof.
  intros l a b c k v d -> F N. enough (G : i_attrs (after (a ++ SetRecord c k v :: b)) (record_key c k) = Some v).
  { unfold get_record, AttrModel.lookup. rewrite G. reflexivity. }
  induction b as [|o b IH] using rev_ind.
  - rewrite run_snoc. cbn. apply tset_same.
  - assert (E : a ++ SetRecord c k v :: b ++ [o] = (a ++ SetRecord c k v :: b) ++ [o]) by (rewrite <- app_assoc; reflexivity).
    rewrite E in *. apply Forall_app in F as [F1 F2]. inversion F2 as [|? ? Ho _]; subst.
    assert (N1 : forall w, ~ In (SetRecord c k w) b) by (intros w H; apply (N w); apply in_or_app; now left).
    specialize (IH F1 N1). rewrite run_snoc. set (i := after (a ++ SetRecord c k v :: b)) in *. clearbody i.
    destruct o as [x|x u|c2 k2 d2|c2 k2 u]; cbn [AttrModel.step snd]; try exact IH.
    + destruct Ho as [O _]. assert (P := reserved_not_private x O c k).
      unfold AttrModel.set, set_attr, place, wrapb in *. destruct (kind_of x) as [[]|] eqn:K; cbn [i_attrs].
      * destruct u; cbn [i_attrs]; try (rewrite tset_other by congruence; exact IH).
        destruct (lookup i (private x)) as [[]|]; cbn [i_attrs]; try (rewrite tset_other by congruence; exact IH). exact IH.
      * rewrite tset_other by congruence. exact IH.
      * rewrite tset_other by congruence. exact IH.
      * rewrite tset_other by congruence. exact IH.
    + unfold set_record, set_attr. cbn [i_attrs]. rewrite tset_other; [exact IH|]. intros E2. unfold record_key in E2. cbn in E2. injection E2 as -> ->.
      apply (N u). apply in_or_app. right. now left.
Qed.
End Proof.

(** A class with a record field [x] and a plain field [_x]. *)
Definition ex_fields : list (str * kind) := [($"x", KRec); ($"_x", KPlain); ($"y", KConv)].
Definition ex_class : table := fun _ => None.
Definition ex_prog : list op := [Set_ ($"x") (VStor 1); Set_ ($"_x") (VPlain 7); Set_ ($"y") (VPlain 2)].
Definition ex_inst : inst := snd (run ex_fields ex_class new_inst ex_prog).
Lemma ex_ok : ok_class ex_fields ex_class.
Proof.
  split; [|split; [discriminate|reflexivity]]. intros x W W2. unfold wrapped, is_rec, kind_of, ex_fields in W2. cbn [kind_in] in W2.
  repeat match goal with H : context [str_eq_dec ?a ?b] |- _ => destruct (str_eq_dec a b) as [e|] in H end;
    try (destruct W2; discriminate); try (injection e as <-); try discriminate e; destruct W as [W|W]; discriminate W.
Qed.
Example C98_example_ok : ok_class ex_fields ex_class /\ Forall ok_op ex_prog /\ wrapped ex_fields ($"x") /\
  last_to (same_place ex_fields ($"x")) ex_prog ($"_x") (VPlain 7) /\ last_to (eq ($"x")) ex_prog ($"x") (VStor 1).
Proof.
  assert (W : wrapped ex_fields ($"x")) by (left; reflexivity). split; [exact ex_ok|]. split.
  { repeat constructor; cbn; try discriminate; intros r; discriminate. }
  split; [exact W|]. split.
  - exists [Set_ ($"x") (VStor 1)], [Set_ ($"y") (VPlain 2)]. split; [reflexivity|]. split.
    + right. left. split; [exact W|]. split; [|reflexivity]. intros [H|H]; discriminate.
    + intros z w [H|[]]. injection H as <- <-. intros [H|[(_ & _ & H)|(_ & _ & H)]]; discriminate.
  - exists [], [Set_ ($"_x") (VPlain 7); Set_ ($"y") (VPlain 2)]. split; [reflexivity|]. split; [reflexivity|].
    intros z w [H|[H|[]]]; injection H as <- <-; discriminate.
Qed.
Example C98_example :
  get ex_fields ex_class ex_inst ($"x") = Ok (VPlain 7) /\ saved ex_fields ex_class ex_inst ($"x") = Ok (Some (VRec 0)) /\
  i_heap ex_inst 0 = VStor 1 /\ get_record ex_class ex_inst "x"%char [] None = Exn AttributeError.
Proof. repeat split. Qed.

Print Assumptions C98_field_reads.
Print Assumptions C98_attribute_reads.
Print Assumptions C98_unassigned.
Print Assumptions C98_saved.
Print Assumptions C98_saved_as_read.
Print Assumptions C98_no_clash.
Print Assumptions C98_get_record.
Print Assumptions C98_set_record.
