(** Fields of modelclasses as attributes: C68. *)
From Coq Require Import List Ascii String Bool Arith ZArith Lia.
From Verif Require Import Base PosixModel FsModel PathModel SerialModel StoreModel ContainerModel FieldModel StoreExample StoreRecord FsProof TargetProof PropsContainer.
Import ListNotations.
Local Arguments str_eq_dec : simpl never.

(** ** Specification *)
(** Python attributes, with methods [pre] that are called on the values assigned. *)
Definition attrs : Type := str -> option obj.
Inductive checked (pre : str -> option (obj -> res obj)) (k : str) (v : obj) : res obj -> Prop :=
| ChkNone : pre k = None -> checked pre k v (Ok v)
| ChkSome f : pre k = Some f -> checked pre k v (f v).
Inductive attr_step (pre : str -> option (obj -> res obj)) (a : attrs) : fop -> res obj -> attrs -> Prop :=
| ARead k v : a k = Some v -> attr_step pre a (FGet k) (Ok v) a
| AReadE k : a k = None -> attr_step pre a (FGet k) (Exn AttributeError) a
| AWrite k v v' a' : checked pre k v (Ok v') -> a' k = Some v' -> (forall k', k' <> k -> a' k' = a k') -> attr_step pre a (FSet k v) (Ok (OAtom ANone)) a'
| AWriteE k v e : checked pre k v (Exn e) -> attr_step pre a (FSet k v) (Exn e) a.
Inductive attr_steps (pre : str -> option (obj -> res obj)) : attrs -> list fop -> list (res obj) -> attrs -> Prop :=
| ANil a : attr_steps pre a [] [] a
| ACons a o r a1 ops rs a2 : attr_step pre a o r a1 -> attr_steps pre a1 ops rs a2 -> attr_steps pre a (o :: ops) (r :: rs) a2.
(** What a user sees of the attributes of an instance. *)
Definition visible (fs : list (str * obj)) : attrs := fun k => option_map seen (assoc k fs).
(** No record waits for its first access, and attributes that are not record fields hold no records. *)
Definition ready (fds : list mfield) (fs : list (str * obj)) : Prop :=
  forall k o, assoc k fs = Some o -> in_memory o /\ (plain o \/ exists f, In f fds /\ mf_name f = k /\ mf_wrap f <> None).
Definition fop_value (o : fop) : list obj := match o with FSet _ v => [v] | FGet _ => [] end.
Definition plain_pre (pre : str -> option (obj -> res obj)) : Prop :=
  forall k f v v', pre k = Some f -> plain v -> f v = Ok v' -> plain v'.

Lemma find_name k fds f : NoDup (map mf_name fds) -> In f fds -> mf_name f = k ->
  find (fun g => if str_eq_dec (mf_name g) k then true else false) fds = Some f.
Proof.
  intros Hn. induction fds as [|g fds IH]; [intros []|]. cbn [map] in Hn. inversion Hn as [|? ? H1 H2]; subst. intros [->|Hi] Hk; cbn [find].
  - rewrite Hk. destruct (str_eq_dec k k); congruence.
  - destruct (str_eq_dec (mf_name g) k) as [Hg|_]; [|apply IH; assumption]. exfalso. apply H1. rewrite Hg, <- Hk. apply in_map. assumption.
Qed.
Lemma wrap_in fds k f : NoDup (map mf_name fds) -> In f fds -> mf_name f = k -> wrap_of fds k = mf_wrap f.
Proof. intros Hn Hi Hk. unfold wrap_of. rewrite (find_name k fds f) by assumption. reflexivity. Qed.
Lemma wrap_some fds k x : wrap_of fds k = Some x -> exists f, In f fds /\ mf_name f = k /\ mf_wrap f <> None.
Proof.
  unfold wrap_of. destruct (find _ fds) as [f|] eqn:Ef; [|discriminate]. intros H. apply find_some in Ef as [H1 H2]. exists f. split; [assumption|].
  split; [destruct (str_eq_dec (mf_name f) k); [assumption|discriminate]|congruence].
Qed.

Section Attributes.
Variable E : senv.
Variable n : nat.
Variable fds : list mfield.
Variable pre : str -> option (obj -> res obj).
Hypothesis Hfds : NoDup (map mf_name fds).
Hypothesis Hpre : plain_pre pre.

Lemma pre_checked k v : checked pre k v (pre_set pre k v).
Proof. unfold pre_set. destruct (pre k) as [f|] eqn:Ek; [apply ChkSome|apply ChkNone]; assumption. Qed.
Lemma pre_plain k v v' : plain v -> pre_set pre k v = Ok v' -> plain v'.
Proof. unfold pre_set. destruct (pre k) as [f|] eqn:Ek; intros Hv H; [eapply Hpre; eassumption|]. injection H as <-. assumption. Qed.
Lemma set_visible fs k o : visible (assoc_set k o fs) k = Some (seen o) /\ forall k', k' <> k -> visible (assoc_set k o fs) k' = visible fs k'.
Proof. unfold visible. split; [rewrite assoc_set_same; reflexivity|]. intros k' Hk. rewrite assoc_set_other by congruence. reflexivity. Qed.
Lemma set_ready fs k o : ready fds fs -> in_memory o -> (plain o \/ wrap_of fds k <> None) -> ready fds (assoc_set k o fs).
Proof.
  intros Hr Ho Hw k' o' Ha. destruct (str_eq_dec k' k) as [->|Hk].
  - rewrite assoc_set_same in Ha. injection Ha as <-. split; [assumption|]. destruct Hw as [Hw|Hw]; [left; assumption|]. right.
    destruct (wrap_of fds k) as [x|] eqn:Ew; [|congruence]. eapply wrap_some; eassumption.
  - rewrite assoc_set_other in Ha by congruence. apply Hr. assumption.
Qed.
Lemma record_step t pl fs u k v w : ready fds fs -> plain v -> wrap_of fds k <> None ->
  exists o u', record_set E n t pl (fs, u) k v w = (Ok (Ok (OAtom ANone), (assoc_set k o fs, u')), w) /\ in_memory o /\ seen o = v.
Proof.
  intros Hr Hv Hw. unfold record_set. destruct (is_storable E v) eqn:Es.
  - destruct (assoc k fs) as [o|] eqn:Ea.
    2:{ eexists _, _. split; [reflexivity|]. split; [|reflexivity]. exact Hv. }
    destruct o as [a|l|d|c d|c fs0 u0|q s u0|p s u0|c t0 p0 we re|ty tt b cx|ty|m]; try (eexists _, _; split; [reflexivity|]; split; [exact Hv|reflexivity]).
    destruct (Hr k _ Ea) as [Hm _]. unfold mbind, ret. destruct (s_clean E).
    + rewrite content_memory by assumption. eexists _, _. split; [reflexivity|]. split; [exact Hv|reflexivity].
    + eexists _, _. split; [reflexivity|]. split; [exact Hv|reflexivity].
  - exists v. eexists. split; [unfold ret; reflexivity|]. destruct v; try (split; [exact I|reflexivity]); destruct Hv.
Qed.
Lemma field_step fs u o w : ready fds fs -> Forall plain (fop_value o) ->
  exists r fs' u', field_op E n fds pre (fs, u) o w = (Ok (r, (fs', u')), w) /\ ready fds fs' /\ attr_step pre (visible fs) o r (visible fs').
Proof.
  intros Hr Hv. destruct o as [k|k v]; cbn [field_op].
  - unfold field_get. destruct (assoc k fs) as [o|] eqn:Ea.
    2:{ eexists _, fs, u. split; [reflexivity|]. split; [assumption|]. apply AReadE. unfold visible. rewrite Ea. reflexivity. }
    destruct (Hr k o Ea) as [Hm Hp].
    assert (Hs : visible fs k = Some (seen o)) by (unfold visible; rewrite Ea; reflexivity).
    destruct (wrap_of fds k) as [x|] eqn:Ew.
    + unfold mbind. rewrite content_memory by assumption. unfold ret. cbn [fst snd]. rewrite assoc_set_id by assumption.
      eexists _, fs, u. split; [reflexivity|]. split; [assumption|]. apply ARead. assumption.
    + assert (Hpo : plain o). { destruct Hp as [Hp|(f & H1 & H2 & H3)]; [assumption|]. rewrite (wrap_in fds k f) in Ew by assumption. congruence. }
      eexists _, fs, u. split; [reflexivity|]. split; [assumption|]. apply ARead. rewrite Hs. destruct o; try reflexivity. destruct Hpo.
  - cbn in Hv. inversion Hv as [|? ? Hp _]; subst. unfold field_set. destruct (wrap_of fds k) as [[t pl]|] eqn:Ew.
    + replace (if is_record v then Ok v else pre_set pre k v) with (pre_set pre k v) by (destruct v; try reflexivity; destruct Hp).
      pose proof (pre_checked k v) as Hc. destruct (pre_set pre k v) as [v'|e] eqn:Epr.
      * pose proof (pre_plain k v v' Hp Epr) as Hp'. destruct (record_step t pl fs u k v' w Hr Hp') as (o & u' & H1 & H2 & H3); [congruence|].
        eexists _, _, u'. split; [exact H1|]. split; [apply set_ready; [assumption|assumption|right; congruence]|].
        destruct (set_visible fs k o) as [S1 S2]. econstructor; [eassumption|rewrite S1, H3; reflexivity|assumption].
      * eexists _, fs, u. split; [reflexivity|]. split; [assumption|]. apply AWriteE. assumption.
    + pose proof (pre_checked k v) as Hc. destruct (pre_set pre k v) as [v'|e] eqn:Epr.
      * pose proof (pre_plain k v v' Hp Epr) as Hp'. cbn [fst snd]. assert (Hsv : in_memory v' /\ seen v' = v') by (destruct v'; try (split; [exact I|reflexivity]); destruct Hp').
        destruct Hsv as [Hi Hs]. eexists _, _, u. split; [reflexivity|]. split; [apply set_ready; [assumption|assumption|left; assumption]|].
        destruct (set_visible fs k v') as [S1 S2]. econstructor; [eassumption|rewrite S1, Hs; reflexivity|assumption].
      * eexists _, fs, u. split; [reflexivity|]. split; [assumption|]. apply AWriteE. assumption.
Qed.
Lemma field_steps ops : forall fs u w, ready fds fs -> Forall (fun o => Forall plain (fop_value o)) ops ->
  exists rs fs' u', field_ops E n fds pre (fs, u) ops w = (Ok (rs, (fs', u')), w) /\ ready fds fs' /\ attr_steps pre (visible fs) ops rs (visible fs').
Proof.
  induction ops as [|o ops IH]; intros fs u w Hr Hv.
  - exists [], fs, u. split; [reflexivity|]. split; [assumption|constructor].
  - inversion Hv; subst. destruct (field_step fs u o w Hr) as (r & fs1 & u1 & H3 & H4 & H5); [assumption|].
    destruct (IH fs1 u1 w H4) as (rs & fs2 & u2 & H6 & H7 & H8); [assumption|].
    exists (r :: rs), fs2, u2. cbn [field_ops]. unfold mbind at 1. rewrite H3. cbn [snd fst]. unfold mbind. rewrite H6. split; [reflexivity|].
    split; [assumption|]. econstructor; eassumption.
Qed.
End Attributes.

(** ** C68 *)
(** Any sequence of reads and assignments of the fields of a model in memory gives the results and errors of Python
    attributes, and touches no file. *)
Theorem C68_like_attributes : forall E n fds pre fs unused ops w,
  NoDup (map mf_name fds) -> plain_pre pre -> ready fds fs -> Forall (fun o => Forall plain (fop_value o)) ops ->
  exists results fs' unused',
    field_ops E n fds pre (fs, unused) ops w = (Ok (results, (fs', unused')), w) /\
    ready fds fs' /\ attr_steps pre (visible fs) ops results (visible fs').
Proof. intros E n fds pre fs unused ops w Hn Hp Hr Hv. exact (field_steps E n fds pre Hn Hp ops fs unused w Hr Hv). Qed.

(** In any state, also with records that wait for their first access, other attributes are left alone; a storable that is
    assigned to a record field takes the file name of the record it replaces, or the one the class gives the field. *)
Theorem C68_keeps_its_file : forall E n fds pre f t pl fs unused v w r fs' unused' w',
  NoDup (map mf_name fds) -> In f fds -> mf_wrap f = Some (t, pl) -> pre (mf_name f) = None -> is_storable E v = true ->
  field_set E n fds pre (fs, unused) (mf_name f) v w = (Ok (r, (fs', unused')), w') ->
  r = Ok (OAtom ANone) /\
  (forall k, k <> mf_name f -> assoc k fs' = assoc k fs) /\
  exists we re, match assoc (mf_name f) fs with
                | Some (ORec _ t0 pl0 _ _) => assoc (mf_name f) fs' = Some (ORec v t0 pl0 we re)
                | _ => assoc (mf_name f) fs' = Some (ORec v t pl we re)
                end.
Proof.
  intros E n fds pre f t pl fs u v w r fs' u' w' Hn Hi Hw Hp Hs H. unfold field_set in H. rewrite (wrap_in fds (mf_name f) f), Hw in H by trivial.
  replace (if is_record v then Ok v else pre_set pre (mf_name f) v) with (Ok v) in H by (unfold pre_set; rewrite Hp; destruct (is_record v); reflexivity).
  unfold record_set in H. rewrite Hs in H.
  assert (Hother : forall o k, k <> mf_name f -> assoc k (assoc_set (mf_name f) o fs) = assoc k fs) by (intros o k Hk; apply assoc_set_other; congruence).
  assert (Hnew : ret (Ok (OAtom ANone), (assoc_set (mf_name f) (ORec v t pl None None) fs, u)) w = (Ok (r, (fs', u')), w') ->
    r = Ok (OAtom ANone) /\ (forall k, k <> mf_name f -> assoc k fs' = assoc k fs) /\ assoc (mf_name f) fs' = Some (ORec v t pl None None)).
  { unfold ret. intros Hx. injection Hx as <- <- <- <-. split; [reflexivity|]. split; [apply Hother|apply assoc_set_same]. }
  destruct (assoc (mf_name f) fs) as [o|] eqn:Ea; [|destruct (Hnew H) as (H1 & H2 & H3); eauto 6].
  destruct o as [a|l|d|c d|c fs0 u0|q s u0|p s u0|c t0 p0 we re|ty tt b cx|ty|m]; try (destruct (Hnew H) as (H1 & H2 & H3); eauto 6).
  apply mbind_ok in H as ([c1 r1] & w1 & H1 & H). unfold ret in H. injection H as <- <- _ _.
  assert (Hr1 : exists c2 we2 re2, r1 = ORec c2 t0 p0 we2 re2).
  { destruct (s_clean E); [|unfold ret in H1; injection H1 as _ <- _; eauto]. cbn [content_of] in H1. apply mbind_ok in H1 as ([[v2 c2] re2] & w2 & _ & H1). unfold ret in H1. injection H1 as _ <- _. eauto. }
  destruct Hr1 as (c2 & we2 & re2 & ->). split; [reflexivity|]. split; [apply Hother|]. exists we2, re2. apply assoc_set_same.
Qed.

(** A record assigned to a record field becomes the record of the field as it is: with its own file name and without the
    method [pre] being asked; what the field held before is remembered for removal. *)
Theorem C68_record_assigned : forall E n fds pre f tp fs unused c t pl we re w,
  NoDup (map mf_name fds) -> In f fds -> mf_wrap f = Some tp ->
  exists fs' unused',
    field_set E n fds pre (fs, unused) (mf_name f) (ORec c t pl we re) w = (Ok (Ok (OAtom ANone), (fs', unused')), w) /\
    assoc (mf_name f) fs' = Some (ORec c t pl we re) /\ (forall k, k <> mf_name f -> assoc k fs' = assoc k fs) /\
    (forall o, In o unused' <-> In o unused \/ (s_clean E = true /\ assoc (mf_name f) fs = Some o /\ o <> OAtom ANone)).
Proof.
  intros E n fds pre f [t0 p0] fs u c t pl we re w Hn Hi Hw. unfold field_set. rewrite (wrap_in fds (mf_name f) f), Hw by trivial.
  cbn [is_record]. unfold record_set. change (is_storable E (ORec c t pl we re)) with false. cbn iota. unfold ret. do 2 eexists. split; [reflexivity|].
  split; [apply assoc_set_same|]. split; [intros k Hk; apply assoc_set_other; congruence|]. intros o. rewrite in_app_iff.
  assert (H : In o match assoc (mf_name f) fs with None | Some (OAtom ANone) => [] | Some old => if s_clean E then [old] else [] end <->
    s_clean E = true /\ assoc (mf_name f) fs = Some o /\ o <> OAtom ANone).
  { destruct (assoc (mf_name f) fs) as [old|]; [|split; [intros []|intros (_ & H & _); discriminate]].
    assert (Hd : old = OAtom ANone \/ old <> OAtom ANone) by (destruct old as [[]| | | | | | | | | |]; auto; right; discriminate).
    destruct Hd as [->|Hd]; [split; [intros []|intros (_ & H & Hx); congruence]|].
    transitivity (In o (if s_clean E then [old] else [])); [destruct old as [[]| | | | | | | | | |]; reflexivity || congruence|].
    destruct (s_clean E); cbn; split; intuition congruence. }
  rewrite H. reflexivity.
Qed.

(** The fields of the example class, one of them with a method that refuses numbers. *)
Definition fd_pre (k : str) : option (obj -> res obj) :=
  if str_eq_dec k ($"name") then Some (fun v => match v with OAtom (AInt _) => Exn ValueError | _ => Ok v end) else None.
Definition fd_attrs : list (str * obj) := [($"name", OAtom ANone); ($"data", rec_of (blob "one") "data"); ($"tmp", OAtom (AInt 9))].
Example C68_example :
  let ops := [FSet ($"data") (blob "two"); FGet ($"data"); FSet ($"name") (OAtom (AInt 1)); FGet ($"name"); FSet ($"data") (OAtom ANone); FGet ($"data"); FGet ($"x")] in
  NoDup (map mf_name ex_fields) /\ plain_pre fd_pre /\ ready ex_fields fd_attrs /\ Forall (fun o => Forall plain (fop_value o)) ops /\
  (forall w, exists fs' u', field_ops (ex_env "auto" false None) 3 ex_fields fd_pre (fd_attrs, []) ops w =
     (Ok ([Ok (OAtom ANone); Ok (blob "two"); Exn ValueError; Ok (OAtom ANone); Ok (OAtom ANone); Ok (OAtom ANone); Exn AttributeError], (fs', u')), w)) /\
  exists r fs' u' w', field_set (ex_env "auto" false None) 3 ex_fields fd_pre (fd_attrs, []) ($"data") (blob "two") ex_world = (Ok (r, (fs', u')), w') /\
    assoc ($"data") fs' = Some (rec_of (blob "two") "data").
Proof.
  split; [|split; [|split; [|split; [|split]]]].
  - cbn. repeat (constructor; [cbn; intuition discriminate|]). constructor.
  - intros k f v v'. unfold fd_pre. destruct (str_eq_dec k ($"name")); [|discriminate]. intros H Hp. injection H as <-.
    destruct v as [[]| | | | | | | | | |]; intros H; try discriminate; injection H as <-; assumption.
  - intros k o. cbn [fd_attrs assoc]. destruct (str_eq_dec ($"name") k) as [<-|]; [intros H; injection H as <-; split; [exact I|left; exact I]|].
    destruct (str_eq_dec ($"data") k) as [<-|]; [intros H; injection H as <-; split; [exact I|right]; eexists; split; [right; left; reflexivity|split; [reflexivity|discriminate]]|].
    destruct (str_eq_dec ($"tmp") k) as [<-|]; [intros H; injection H as <-; split; [exact I|left; exact I]|discriminate].
  - repeat (apply Forall_cons; [cbn; repeat (apply Forall_cons; [exact I|]); apply Forall_nil|]). apply Forall_nil.
  - intros w. do 2 eexists. vm_compute. reflexivity.
  - let v := eval vm_compute in (field_set (ex_env "auto" false None) 3 ex_fields fd_pre (fd_attrs, []) ($"data") (blob "two") ex_world) in
    match v with (Ok (?r, (?fs, ?u)), ?w) => exists r, fs, u, w end. split; vm_compute; reflexivity.
Qed.

Print Assumptions C68_like_attributes.
Print Assumptions C68_keeps_its_file.
Print Assumptions C68_record_assigned.
