(** Storable dataclasses and templates: C80, C81. *)
From Coq Require Import List Ascii String Bool Arith ZArith Lia.
From Verif Require Import Base PosixModel FsModel PathModel SerialModel SerialSpec DataModel DataSpec FsProof SerialProof SerialFaults SerialMore PropsSerial.
Import ListNotations.

Local Arguments str_eq_dec : simpl never.
Local Arguments atom_eq_dec : simpl never.

Section Data.
Variable C : denv.
Variable fr : Z -> str.

(** ** Building instances *)
Lemma build_exact {A} (g : A -> val) fds (fs : list (str * A)) : map fst fs = map f_name fds -> NoDup (map f_name fds) -> Forall (fun f => f_init f = true) fds ->
  forall args, (forall k x, In (k, x) fs -> assoc k args = Some (g x)) -> build fds args = Ok (map (fun kv => (fst kv, g (snd kv))) fs).
Proof.
  revert fs. induction fds as [|f fds IH]; intros [|[k x] fs] Hm Hn Hi args Ha; try discriminate; [reflexivity|].
  cbn [map] in Hm. injection Hm as Hk Hm. cbn [map] in Hn. inversion Hn as [|? ? N1 N2]; subst. inversion Hi as [|? ? I1 I2]; subst.
  cbn [build]. rewrite (IH fs Hm N2 I2 args) by (intros; apply Ha; right; assumption). cbn [bind]. rewrite I1, (Ha (f_name f) x) by (left; reflexivity). reflexivity.
Qed.
Lemma str_keys {A} (l : list (str * A)) : forall g : A -> val,
  map_res (fun kv : atom * val => do k <- str_key (fst kv); Ok (k, snd kv)) (map (fun kv => (AStr (fst kv), g (snd kv))) l) = Ok (map (fun kv => (fst kv, g (snd kv))) l).
Proof. intros g. induction l as [|[k x] l IH]; [reflexivity|]. cbn [map]. rewrite map_res_cons. cbn [fst snd str_key bind]. rewrite IH. reflexivity. Qed.
(** [cls( **d)] for a dict with exactly the names of the fields, in any order. *)
Lemma make_perm {A} (g : A -> val) c fds (l fs : list (str * A)) : d_fields C c = Some fds -> map fst fs = map f_name fds -> NoDup (map f_name fds) -> Forall (fun f => f_init f = true) fds ->
  NoDup (map fst l) -> (forall kx, In kx l <-> In kx fs) -> make C c (map (fun kv => (AStr (fst kv), g (snd kv))) l) = Ok (VObj c (map (fun kv => (fst kv, g (snd kv))) fs)).
Proof.
  intros Hf Hm Hn Hi Hl Hp. unfold make. rewrite str_keys. cbn [bind]. rewrite Hf. unfold construct.
  replace (forallb _ _) with true.
  - rewrite (build_exact g fds fs Hm Hn Hi); [reflexivity|]. intros k x Hx. rewrite (assoc_map g). erewrite assoc_in_nodup; [reflexivity|assumption|]. apply Hp. assumption.
  - symmetry. apply forallb_forall. intros [k x] Hx. apply in_map_iff in Hx as ([k0 x0] & Hx & Hin). injection Hx as <- <-. cbn [fst].
    apply member_in. unfold init_names. apply Hp in Hin. apply (in_map fst) in Hin. cbn [fst] in Hin. rewrite Hm in Hin. apply in_map_iff in Hin as (f & <- & Hin).
    apply in_map. apply filter_In. split; [assumption|]. rewrite Forall_forall in Hi. auto.
Qed.
Lemma make_same {A} (g : A -> val) c fds (fs : list (str * A)) : d_fields C c = Some fds -> map fst fs = map f_name fds -> NoDup (map f_name fds) -> Forall (fun f => f_init f = true) fds ->
  make C c (map (fun kv => (AStr (fst kv), g (snd kv))) fs) = Ok (VObj c (map (fun kv => (fst kv, g (snd kv))) fs)).
Proof. intros Hf Hm Hn Hi. apply (make_perm g c fds fs fs); try assumption; [rewrite Hm; assumption|reflexivity]. Qed.

(** ** asdict *)
Lemma as_fields_ok fds : forall vs : list (str * res val), (forall f, In f fds -> exists x, assoc (f_name f) vs = Some (Ok x)) ->
  exists xs, as_fields fds vs = Ok (combine (map (fun f => AStr (f_name f)) fds) xs) /\ List.length xs = List.length fds /\
    forall f x, In (AStr (f_name f), x) (combine (map (fun f => AStr (f_name f)) fds) xs) -> exists f', f_name f' = f_name f /\ assoc (f_name f') vs = Some (Ok x).
Proof.
  induction fds as [|f fds IH]; intros vs Hv; [exists []; split; [reflexivity|split; [reflexivity|intros f x []]]|].
  destruct (Hv f) as [x Hx]; [left; reflexivity|]. destruct (IH vs) as (xs & X1 & X2 & X3); [intros; apply Hv; right; assumption|].
  exists (x :: xs). cbn [as_fields map combine List.length]. rewrite Hx. cbn [bind]. rewrite X1. split; [reflexivity|]. split; [lia|].
  intros f0 x0 [H|H]; [injection H as H1 ->; exists f; split; [assumption|]; assumption|apply X3; assumption].
Qed.
Lemma as_fields_same {A} (g : A -> val) fds : forall (fs : list (str * A)) vs, map fst fs = map f_name fds -> (forall k x, In (k, x) fs -> assoc k vs = Some (Ok (g x))) ->
  as_fields fds vs = Ok (map (fun kv => (AStr (fst kv), g (snd kv))) fs).
Proof.
  induction fds as [|f fds IH]; intros [|[k x] fs] vs Hm Hv; try discriminate; [reflexivity|]. cbn [map] in Hm. injection Hm as -> Hm. cbn [as_fields].
  rewrite (Hv (f_name f) x) by (left; reflexivity). cbn [bind]. rewrite (IH fs vs Hm) by (intros; apply Hv; right; assumption). reflexivity.
Qed.
Lemma as_whole v : whole C v -> exists x, as_inner C v = Ok x.
Proof.
  induction v as [a|l IH|l IH|d IH|c fs IH|c m|i|i] using val_ind'; intros H; inversion H; subst; cbn [as_inner]; try (eexists; reflexivity).
  1,2: destruct (map_res_rel (as_inner C) (fun _ _ => True) l) as (ys & -> & _); [intros x Hx; destruct (IH x Hx) as [y Hy]; [auto|exists y; auto]|]; eexists; reflexivity.
  - destruct (map_res_rel (fun kv => do x <- as_inner C (snd kv); Ok (fst kv, x)) (fun _ _ => True) d) as (ys & -> & _); [|eexists; reflexivity].
    intros [k x] Hx. destruct (IH k x Hx) as [y Hy]; [eauto|]. exists (k, y). cbn [fst snd]. rewrite Hy. auto.
  - match goal with E : d_fields C _ = _ |- _ => rewrite E end. destruct (as_fields_ok fds (map (fun kv => (fst kv, as_inner C (snd kv))) fs)) as (xs & -> & _); [|eexists; reflexivity].
    intros f Hf. rewrite assoc_map. destruct (assoc (f_name f) fs) as [x|] eqn:Ea; [|apply assoc_none_notin in Ea; exfalso; auto].
    apply assoc_in in Ea. destruct (IH _ _ Ea) as [y Hy]; [eauto|]. exists y. cbn [option_map]. rewrite Hy. reflexivity.
  - match goal with E : d_fields C _ = _ |- _ => rewrite E end. eexists; reflexivity.
Qed.
Lemma as_dicts v : text_keys C v -> as_inner C v = Ok (dicts C v).
Proof.
  induction v as [a|l IH|l IH|d IH|c fs IH|c m|i|i] using val_ind'; intros H; inversion H; subst; cbn [as_inner dicts]; try reflexivity.
  1,2: rewrite (map_res_ok (as_inner C) (dicts C) l); [reflexivity|]; intros x Hx; auto.
  - rewrite (map_res_ok _ (fun kv => (fst kv, dicts C (snd kv))) d); [reflexivity|]. intros [k x] Hx. cbn [fst snd]. rewrite (IH k x); [reflexivity|assumption|eauto].
  - match goal with E : d_fields C _ = _ |- _ => rewrite E end. rewrite (as_fields_same (dicts C) fds fs); [reflexivity|assumption|].
    intros k x Hx. rewrite assoc_map. erewrite assoc_in_nodup; [|match goal with E : map fst _ = map f_name _ |- _ => rewrite E end; assumption|eassumption]. cbn. f_equal. eauto.
  - match goal with E : d_fields C _ = _ |- _ => rewrite E end. reflexivity.
Qed.
Lemma asdict_dicts c fds fs : d_fields C c = Some fds -> map fst fs = map f_name fds -> NoDup (map f_name fds) -> (forall k x, In (k, x) fs -> text_keys C x) ->
  asdict C (VObj c fs) = Ok (map (fun kv => (AStr (fst kv), dicts C (snd kv))) fs).
Proof.
  intros Hf Hm Hn Ht. cbn [asdict]. rewrite Hf. apply as_fields_same; [assumption|].
  intros k x Hx. rewrite assoc_map. erewrite assoc_in_nodup; [|rewrite Hm; assumption|eassumption]. cbn. f_equal. apply as_dicts. eauto.
Qed.

(** ** The text *)
Lemma dump_dict d : (forall k x, In (k, x) d -> exists s, k = AStr s) -> NoDup (map fst d) ->
  undump (dump C fr (VDict d)) = VDict (map (fun kv => (fst kv, undump (dump C fr (snd kv)))) d).
Proof.
  intros Hk Hn. cbn [dump]. rewrite json_object_nodup.
  - cbn [undump]. f_equal. rewrite map_map. apply map_ext_in. intros [k x] Hx. destruct (Hk k x Hx) as [s ->]. reflexivity.
  - rewrite map_map. cbn [fst]. clear -Hk Hn. induction d as [|[k x] d IH]; [constructor|]. cbn [map fst] in *. inversion Hn as [|? ? N1 N2]; subst. constructor.
    + intros Hin. apply in_map_iff in Hin as ([k2 x2] & He & Hin). apply N1. cbn [fst] in He. destruct (Hk k x) as [s ->]; [left; reflexivity|].
      destruct (Hk k2 x2) as [s2 ->]; [right; assumption|]. cbn in He. subst s2. apply (in_map fst) in Hin. exact Hin.
    + apply IH; [intros; eapply Hk; right; eassumption|assumption].
Qed.
Lemma undump_atom a : undump (json_atom a) = VAtom a. Proof. destruct a; reflexivity. Qed.
Lemma dump_flat v : text_keys C v -> undump (dump C fr (dicts C v)) = flattened C v.
Proof.
  induction v as [a|l IH|l IH|d IH|c fs IH|c m|i|i] using val_ind'; intros H; inversion H; subst; cbn [dicts flattened]; try reflexivity.
  - apply undump_atom.
  - cbn [dump undump]. rewrite !map_map. f_equal. apply map_ext_in. intros x Hx. auto.
  - cbn [dump undump]. rewrite !map_map. f_equal. apply map_ext_in. intros x Hx. auto.
  - rewrite dump_dict.
    + rewrite map_map. f_equal. apply map_ext_in. intros [k x] Hx. cbn [fst snd]. rewrite (IH k x); [reflexivity|assumption|eauto].
    + intros k x Hx. apply in_map_iff in Hx as ([k0 x0] & Hx & Hin). injection Hx as <- <-. eauto.
    + rewrite map_map. cbn [fst]. assumption.
  - match goal with E : d_fields C _ = _ |- _ => rewrite E end. rewrite dump_dict.
    + rewrite map_map. f_equal. apply map_ext_in. intros [k x] Hx. cbn [fst snd]. rewrite (IH k x); [reflexivity|assumption|eauto].
    + intros k x Hx. apply in_map_iff in Hx as ([k0 x0] & Hx & Hin). injection Hx as <- <-. eauto.
    + rewrite map_map. cbn [fst]. rewrite <- (map_map fst AStr). apply NoDup_map_inj; [intros x y _ _ Hxy; injection Hxy; auto|match goal with E : map fst _ = map f_name _ |- _ => rewrite E end; assumption].
  - match goal with E : d_fields C _ = _ |- _ => rewrite E end. reflexivity.
Qed.
Lemma json_data_keys v : json_data v -> text_keys C v /\ flattened C v = v /\ dicts C v = v.
Proof.
  induction v as [a|l IH|l IH|d IH|c fs IH|c m|i|i] using val_ind'; intros H; inversion H as [| l0 Hl|d0 Hk Hn Hd]; subst.
  - repeat split; constructor.
  - split; [constructor; intros x Hx; apply IH; auto|]. cbn [flattened dicts]. split; f_equal; (rewrite <- (map_id l) at 2; apply map_ext_in; intros x Hx; apply IH; auto).
  - split; [constructor; [assumption|assumption|intros k x Hx; eapply IH; eauto]|]. cbn [flattened dicts].
    split; f_equal; (rewrite <- (map_id d) at 2; apply map_ext_in; intros [k x] Hx; cbn [fst snd]; f_equal; eapply IH; eauto).
Qed.
Fixpoint json_ind' (P : json -> Prop) (H0 : P JNull) (H1 : forall b, P (JBool b)) (H2 : forall z, P (JInt z)) (H3 : forall f, P (JFloat f)) (H4 : forall s, P (JStr s))
  (H5 : forall l, Forall P l -> P (JList l)) (H6 : forall d, Forall (fun kv => P (snd kv)) d -> P (JDict d)) (j : json) : P j.
Proof.
  destruct j as [|b|z|f|s|l|d]; [apply H0|apply H1|apply H2|apply H3|apply H4|apply H5|apply H6].
  - induction l; constructor; [apply json_ind'; assumption|assumption].
  - induction d; constructor; [apply json_ind'; assumption|assumption].
Defined.
Lemma undump_bare j : ~ has_object (undump j).
Proof.
  induction j as [| | | | |l IH|d IH] using json_ind'; cbn [undump]; intros H; inversion H; subst; try (rewrite Forall_forall in IH).
  - apply in_map_iff in H1 as (y & <- & Hy). exact (IH y Hy H2).
  - apply in_map_iff in H1 as ([k0 y] & Hxy & Hy). injection Hxy as <- <-. exact (IH _ Hy H2).
Qed.
(** What was written can be read, for any values. *)
Lemma write_whole c fds fs : d_fields C c = Some fds -> map fst fs = map f_name fds -> NoDup (map f_name fds) ->
  (forall k x, In (k, x) fs -> whole C x) ->
  exists xs, asdict C (VObj c fs) = Ok (combine (map (fun f => AStr (f_name f)) fds) xs) /\ List.length xs = List.length fds /\
    undump (dump C fr (VDict (combine (map (fun f => AStr (f_name f)) fds) xs))) = VDict (map (fun kv => (AStr (fst kv), undump (dump C fr (snd kv)))) (combine (map f_name fds) xs)).
Proof.
  intros Hf Hm Hn Hw. cbn [asdict]. rewrite Hf. destruct (as_fields_ok fds (map (fun kv => (fst kv, as_inner C (snd kv))) fs)) as (xs & X1 & X2 & _).
  { intros f Hi. rewrite assoc_map. destruct (assoc (f_name f) fs) as [x|] eqn:Ea.
    - apply assoc_in in Ea. destruct (as_whole x) as [y Hy]; [eauto|]. exists y. cbn. rewrite Hy. reflexivity.
    - apply assoc_none_notin in Ea. exfalso. apply Ea. rewrite Hm. apply in_map. assumption. }
  exists xs. split; [assumption|]. split; [assumption|]. 
  assert (Hk : map fst (combine (map (fun f => AStr (f_name f)) fds) xs) = map (fun f => AStr (f_name f)) fds).
  { clear -X2. revert xs X2. induction fds as [|f fds IH]; intros [|x xs] H; try discriminate; [reflexivity|]. cbn in *. f_equal. apply IH. lia. }
  rewrite dump_dict.
  - f_equal. clear. revert xs. induction fds as [|f fds IH]; intros [|x xs]; try reflexivity. cbn. f_equal. apply IH.
  - intros k x Hx. apply in_combine_l in Hx. apply in_map_iff in Hx as (f & <- & _). eauto.
  - rewrite Hk, <- (map_map f_name AStr). apply NoDup_map_inj; [intros x y _ _ Hxy; injection Hxy; auto|assumption].
Qed.
Lemma names_combine {A} (fds : list field) (xs : list A) : List.length xs = List.length fds -> map fst (combine (map f_name fds) xs) = map f_name fds.
Proof. revert xs. induction fds as [|f fds IH]; intros [|x xs] H; try discriminate; [reflexivity|]. cbn in *. f_equal. apply IH. lia. Qed.
End Data.

(** ** C80 *)
(** A storable dataclass whose attributes hold JSON data comes back as it was. *)
Theorem C80_json_data_exact : forall C float_repr c fds fs,
  d_fields C c = Some fds -> made_of fds fs -> (forall k x, In (k, x) fs -> json_data x) ->
  exists j, write_dataclass C float_repr (VObj c fs) = Ok j /\ read_dataclass C c j = Ok (VObj c fs).
Proof.
  intros C fr c fds fs Hf (Hm & Hn & Hi) Hd. unfold write_dataclass.
  rewrite (asdict_dicts C c fds fs Hf Hm Hn) by (intros k x Hx; apply (json_data_keys C); eauto). cbn [bind]. eexists. split; [reflexivity|]. unfold read_dataclass.
  rewrite dump_dict.
  - rewrite map_map. cbn [fst snd].
    assert (He : map (fun kv : str * val => (AStr (fst kv), undump (dump C fr (dicts C (snd kv))))) fs = map (fun kv => (AStr (fst kv), (fun x => x) (snd kv))) fs).
    { apply map_ext_in. intros [k x] Hx. cbn [fst snd]. destruct (json_data_keys C x) as (H1 & H2 & H3); [eauto|]. rewrite dump_flat by assumption. rewrite H2. reflexivity. }
    rewrite He, (make_same C (fun x => x) c fds fs Hf Hm Hn Hi). f_equal. f_equal. rewrite <- (map_id fs) at 2. apply map_ext. intros [k x]. reflexivity.
  - intros k x Hx. apply in_map_iff in Hx as ([k0 x0] & Hx & _). injection Hx as <- _. eauto.
  - rewrite map_map. cbn [fst]. rewrite <- (map_map fst AStr). apply NoDup_map_inj; [intros x y _ _ Hxy; injection Hxy; auto|rewrite Hm; assumption].
Qed.
(** What comes back in general: dataclass instances as dicts, tuples as lists, other objects as a text. *)
Theorem C80_what_comes_back : forall C float_repr c fds fs,
  d_fields C c = Some fds -> made_of fds fs -> (forall k x, In (k, x) fs -> text_keys C x) ->
  exists j, write_dataclass C float_repr (VObj c fs) = Ok j /\ read_dataclass C c j = Ok (VObj c (map (fun kv => (fst kv, flattened C (snd kv))) fs)).
Proof.
  intros C fr c fds fs Hf (Hm & Hn & Hi) Hd. unfold write_dataclass.
  rewrite (asdict_dicts C c fds fs Hf Hm Hn) by assumption. cbn [bind]. eexists. split; [reflexivity|]. unfold read_dataclass.
  rewrite dump_dict.
  - rewrite map_map. cbn [fst snd].
    assert (He : map (fun kv : str * val => (AStr (fst kv), undump (dump C fr (dicts C (snd kv))))) fs = map (fun kv => (AStr (fst kv), flattened C (snd kv))) fs).
    { apply map_ext_in. intros [k x] Hx. cbn [fst snd]. rewrite dump_flat; [reflexivity|eauto]. }
    rewrite He. apply (make_same C (flattened C) c fds fs Hf Hm Hn Hi).
  - intros k x Hx. apply in_map_iff in Hx as ([k0 x0] & Hx & _). injection Hx as <- _. eauto.
  - rewrite map_map. cbn [fst]. rewrite <- (map_map fst AStr). apply NoDup_map_inj; [intros x y _ _ Hxy; injection Hxy; auto|rewrite Hm; assumption].
Qed.
(** Objects are lost without any error: writing succeeds, reading succeeds, and what is read is something else, with no
    object in any attribute. *)
Theorem C80_objects_are_lost : forall C float_repr c fds fs k0 x0,
  d_fields C c = Some fds -> made_of fds fs -> (forall k x, In (k, x) fs -> whole C x) -> In (k0, x0) fs -> has_object x0 ->
  exists j fs', write_dataclass C float_repr (VObj c fs) = Ok j /\ read_dataclass C c j = Ok (VObj c fs') /\
    VObj c fs' <> VObj c fs /\ forall k x, In (k, x) fs' -> ~ has_object x.
Proof.
  intros C fr c fds fs k0 x0 Hf (Hm & Hn & Hi) Hw Hx0 Ho. destruct (write_whole C fr c fds fs Hf Hm Hn Hw) as (xs & X1 & X2 & X3).
  unfold write_dataclass. rewrite X1. cbn [bind]. eexists. eexists. split; [reflexivity|]. unfold read_dataclass. rewrite X3.
  split; [apply (make_same C (fun x => undump (dump C fr x)) c fds); [assumption|apply names_combine; assumption|assumption|assumption]|].
  assert (Hb : forall k x, In (k, x) (map (fun kv => (fst kv, undump (dump C fr (snd kv)))) (combine (map f_name fds) xs)) -> ~ has_object x).
  { intros k x Hx. apply in_map_iff in Hx as ([k1 x1] & Hx & _). injection Hx as _ <-. apply undump_bare. }
  split; [|exact Hb]. intros He. assert (He2 : map (fun kv => (fst kv, undump (dump C fr (snd kv)))) (combine (map f_name fds) xs) = fs) by congruence.
  apply (Hb k0 x0); [rewrite He2; assumption|assumption].
Qed.
(** With a field that is no argument of the constructor the file is written, but it can never be read. *)
Theorem C80_no_init_no_read : forall C float_repr c fds fs f,
  d_fields C c = Some fds -> map fst fs = map f_name fds -> NoDup (map f_name fds) -> (forall k x, In (k, x) fs -> whole C x) ->
  In f fds -> f_init f = false ->
  exists j, write_dataclass C float_repr (VObj c fs) = Ok j /\ read_dataclass C c j = Exn TypeError.
Proof.
  intros C fr c fds fs f Hf Hm Hn Hw Hin Hi. destruct (write_whole C fr c fds fs Hf Hm Hn Hw) as (xs & X1 & X2 & X3).
  unfold write_dataclass. rewrite X1. cbn [bind]. eexists. split; [reflexivity|]. unfold read_dataclass. rewrite X3. unfold make.
  rewrite (str_keys (combine (map f_name fds) xs) (fun x => undump (dump C fr x))). cbn [bind]. rewrite Hf. unfold construct.
  replace (forallb _ _) with false; [reflexivity|]. symmetry. apply not_true_iff_false. intros H. rewrite forallb_forall in H.
  assert (Hf2 : In (f_name f) (map fst (combine (map f_name fds) xs))) by (rewrite names_combine by assumption; apply in_map; assumption).
  apply in_map_iff in Hf2 as ([k x] & Hk & Hkx). cbn [fst] in Hk. subst k.
  specialize (H (f_name f, undump (dump C fr x))). cbn [fst] in H. assert (Hmem : member (f_name f) (init_names fds) = true) by (apply H; apply in_map_iff; exists (f_name f, x); auto).
  apply member_in in Hmem. unfold init_names in Hmem. apply in_map_iff in Hmem as (g & Hg & Hgi). apply filter_In in Hgi as [Hg1 Hg2].
  assert (g = f) by (eapply (names_inj fds); eassumption). subst g. congruence.
Qed.
(** Exactly those files can be read that hold a JSON object whose keys are fields of the constructor, with all fields
    without a default among them; for any other file there is a TypeError. *)
Theorem C80_which_files_can_be_read : forall C c fds j, d_fields C c = Some fds ->
  let fits := exists d, j = JDict d /\ (forall k, In k (map fst d) -> exists f, In f fds /\ f_name f = k /\ f_init f = true) /\
                        (forall f, In f fds -> f_init f = true -> f_default f = None -> In (f_name f) (map fst d)) in
  (fits /\ exists fs, read_dataclass C c j = Ok (VObj c fs)) \/ (~ fits /\ read_dataclass C c j = Exn TypeError).
Proof.
  intros C c fds j Hf fits.
  destruct j as [|b|z|q|s|l|d]; try (right; split; [intros (d & H & _); discriminate|reflexivity]).
  unfold read_dataclass. cbn [undump]. unfold make. rewrite (str_keys d undump). cbn [bind]. rewrite Hf. unfold construct.
  assert (Hm : forall k, In k (map fst (map (fun kv : str * json => (fst kv, undump (snd kv))) d)) <-> In k (map fst d)) by (intros k; rewrite map_map; reflexivity).
  assert (Hi : forall k, In k (init_names fds) <-> exists f, In f fds /\ f_name f = k /\ f_init f = true).
  { intros k. unfold init_names. rewrite in_map_iff. split; intros (f & A & B); exists f; [apply filter_In in B as [B1 B2]; auto|destruct B; split; [assumption|apply filter_In; auto]]. }
  set (args := map _ d) in *. destruct (forallb _ args) eqn:Ea.
  - assert (Hk : forall k, In k (map fst d) -> exists f, In f fds /\ f_name f = k /\ f_init f = true).
    { intros k Hk. apply Hi, member_in. apply Hm in Hk. apply in_map_iff in Hk as ([k' x] & <- & Hk). rewrite forallb_forall in Ea. exact (Ea _ Hk). }
    assert (Hb : (exists fs, build fds args = Ok fs /\ forall f, In f fds -> f_init f = true -> f_default f = None -> In (f_name f) (map fst d)) \/
                 (build fds args = Exn TypeError /\ exists f, In f fds /\ f_init f = true /\ f_default f = None /\ ~ In (f_name f) (map fst d))).
    { clear - Hm. induction fds as [|f r IH]; [left; exists []; split; [reflexivity|intros f []]|]. cbn [build].
      destruct IH as [(fs & -> & H)|(-> & g & G1 & G2)]; [cbn [bind]|right; split; [reflexivity|exists g; split; [right; exact G1|exact G2]]].
      assert (Ha : forall v, assoc (f_name f) args = Some v -> In (f_name f) (map fst d)) by (intros v Hv; apply Hm; apply assoc_In in Hv; apply (in_map fst) in Hv; exact Hv).
      assert (Hn : assoc (f_name f) args = None -> ~ In (f_name f) (map fst d)) by (intros Hv Hx; apply Hm in Hx; apply assoc_none_notin in Hv; contradiction).
      destruct (f_init f) eqn:Ei.
      - destruct (assoc (f_name f) args) as [v|] eqn:Ev.
        + left. eexists. split; [reflexivity|]. intros g [<-|Hg]; [intros _ _; exact (Ha v eq_refl)|exact (H g Hg)].
        + destruct (f_default f) as [v|] eqn:Ed.
          * left. eexists. split; [reflexivity|]. intros g [<-|Hg]; [congruence|exact (H g Hg)].
          * right. split; [reflexivity|]. exists f. split; [left; reflexivity|]. auto.
      - left. destruct (f_default f); (eexists; split; [reflexivity|]); (intros g [<-|Hg]; [congruence|exact (H g Hg)]). }
    destruct Hb as [(fs & -> & H)|(-> & f & F1 & F2 & F3 & F4)].
    + left. split; [exists d; auto|]. exists fs. reflexivity.
    + right. split; [|reflexivity]. intros (d' & Hd & _ & H). injection Hd as <-. exact (F4 (H f F1 F2 F3)).
  - right. split; [|reflexivity]. intros (d' & Hd & H & _). injection Hd as <-. apply not_true_iff_false in Ea. apply Ea. apply forallb_forall. intros [k x] Hx.
    apply member_in, Hi, H, Hm. apply (in_map fst) in Hx. exact Hx.
Qed.

(** ** C81 *)
Section Templates.
Variable C : denv.
Lemma as_inner_fixed v : text_keys C v -> as_inner C (untuple (dicts C v)) = Ok (untuple (dicts C v)).
Proof.
  induction v as [a|l IH|l IH|d IH|c fs IH|c m|i|i] using val_ind'; intros H; inversion H; subst; cbn [as_inner dicts untuple]; try reflexivity.
  1,2: rewrite (map_res_ok (as_inner C) (fun x => x)); [rewrite map_id; reflexivity|]; intros y Hy; apply in_map_iff in Hy as (z & <- & Hz);
    apply in_map_iff in Hz as (x & <- & Hx); auto.
  - rewrite (map_res_ok _ (fun x => x)); [rewrite map_id; reflexivity|]. intros y Hy. apply in_map_iff in Hy as (z & <- & Hz). apply in_map_iff in Hz as ([k x] & <- & Hx).
    cbn [fst snd]. rewrite (IH k x); [reflexivity|assumption|eauto].
  - match goal with E : d_fields C _ = _ |- _ => rewrite E end. cbn [as_inner untuple].
    rewrite (map_res_ok _ (fun x => x)); [rewrite map_id; reflexivity|]. intros y Hy. apply in_map_iff in Hy as (z & <- & Hz). apply in_map_iff in Hz as ([k x] & <- & Hx).
    cbn [fst snd]. rewrite (IH k x); [reflexivity|assumption|eauto].
  - match goal with E : d_fields C _ = _ |- _ => rewrite E end. cbn [as_inner untuple]. match goal with E : d_fields C _ = _ |- _ => rewrite E end. reflexivity.
Qed.
Lemma dicts_no_data v : ~ has_data C (untuple (dicts C v)).
Proof.
  induction v as [a|l IH|l IH|d IH|c fs IH|c m|i|i] using val_ind'; cbn [dicts untuple]; intros H; try (inversion H; fail).
  1,2: inversion H as [|? y Hy Hd| |]; subst; apply in_map_iff in Hy as (z & <- & Hz); apply in_map_iff in Hz as (x & <- & Hx); exact (IH x Hx Hd).
  - inversion H as [| | |? k y Hy Hd]; subst. apply in_map_iff in Hy as (z & Hz' & Hz). apply in_map_iff in Hz as ([k0 x] & <- & Hx). injection Hz' as <- <-. exact (IH k0 x Hx Hd).
  - destruct (d_fields C c) as [fds|] eqn:Ef; cbn [untuple] in H.
    + inversion H as [| | |? k y Hy Hd]; subst. apply in_map_iff in Hy as (z & Hz' & Hz). apply in_map_iff in Hz as ([k0 x] & <- & Hx). injection Hz' as <- <-. exact (IH k0 x Hx Hd).
    + inversion H; congruence.
Qed.
Definition pick (fs : list (str * val)) (fds : list field) : list (str * val) :=
  map (fun f => (f_name f, match assoc (f_name f) fs with Some x => x | None => VAtom ANone end)) fds.
Lemma pick_same fds fdsT fs : map fst fs = map f_name fds -> NoDup (map f_name fds) -> (forall n, In n (map f_name fds) <-> In n (map f_name fdsT)) ->
  forall kx, In kx (pick fs fdsT) <-> In kx fs.
Proof.
  intros Hm Hn Hs [k x]. unfold pick. rewrite in_map_iff. split.
  - intros (f & Hf & Hin). injection Hf as <- Hx. destruct (assoc (f_name f) fs) as [y|] eqn:Ea; [subst y; apply assoc_in; assumption|].
    apply assoc_none_notin in Ea. exfalso. apply Ea. rewrite Hm. apply Hs. apply in_map. assumption.
  - intros Hin. assert (Hk : In k (map f_name fdsT)) by (apply Hs; rewrite <- Hm; apply (in_map fst) in Hin; exact Hin).
    apply in_map_iff in Hk as (f & <- & Hf). exists f. split; [|assumption]. erewrite assoc_in_nodup; [reflexivity|rewrite Hm; assumption|assumption].
Qed.
Lemma pick_names fs fdsT : map fst (pick fs fdsT) = map f_name fdsT.
Proof. unfold pick. rewrite map_map. reflexivity. Qed.
End Templates.

(** An object of a class with a template, written and read through its template: nested dataclass instances come back as
    dicts and tuples as lists; everything else is as it was. *)
Theorem C81_template_round_trip : forall C E E0 V fr c t T tT fds fdsT fs,
  templated C E E0 V c t T -> registered E0 T tT -> c_kind (e_class E0 T) = KData fdsT ->
  d_fields C c = Some fds -> d_fields C T = Some fdsT -> made_of fds fs ->
  NoDup (map f_name fdsT) -> Forall (fun f => f_init f = true /\ f_noser f = false) fdsT -> (forall n, In n (map f_name fds) <-> In n (map f_name fdsT)) ->
  (forall k x, In (k, x) fs -> text_keys C x /\ plain E0 (dicts C x)) ->
  exists p, ser E V false (VObj c fs) = Ok p /\ deser E V (through_json fr p) XNone = Ok (VObj c (map (fun kv => (fst kv, untuple (dicts C (snd kv)))) fs)).
Proof.
  intros C E E0 V fr c t T tT fds fdsT fs (T1 & T2 & T3 & T4 & T5 & T6 & T7) RT KT Hc HT (Hm & Hn & Hi) HnT HiT Hs Hv.
  pose proof (pick_same fds fdsT fs Hm Hn Hs) as Hp. pose proof (pick_names fs fdsT) as Hpn. set (fsT := pick fs fdsT) in *.
  assert (HiT' : Forall (fun f => f_init f = true) fdsT) by (eapply Forall_impl; [|exact HiT]; cbn beta; tauto).
  assert (HpT : forall k x, In (k, x) fsT -> text_keys C x /\ plain E0 (dicts C x)) by (intros k x Hx; apply (Hv k), Hp; assumption).
  assert (C1 : default_convert C T (VObj c fs) = Ok (VObj T (map (fun kv => (fst kv, dicts C (snd kv))) fsT))).
  { unfold default_convert. rewrite (asdict_dicts C c fds fs Hc Hm Hn) by (intros k x Hx; apply (Hv k x Hx)). cbn [bind].
    apply (make_perm C (dicts C) T fdsT fs fsT HT Hpn HnT HiT'); [rewrite Hm; assumption|]. intros kx. symmetry. apply Hp. }
  assert (Pl : plain E0 (VObj T (map (fun kv => (fst kv, dicts C (snd kv))) fsT))).
  { eapply plain_obj; [eassumption|eassumption| |].
    - split; [assumption|]. unfold fsT, pick. rewrite map_map. cbn [fst snd]. clear -HiT. induction HiT as [|f l [I1 I2] H IH]; [constructor|]. constructor; [|assumption].
      cbn [fst]. repeat split; [assumption|congruence..].
    - intros f k x Hin _. apply in_combine_r in Hin. apply in_map_iff in Hin as ([k0 x0] & He & Hin). injection He as <- <-. apply (HpT k0). assumption. }
  destruct (plain_content E0 _ Pl) as (s & S1 & S2 & S3). cbn [type_of] in S3.
  assert (C2 : default_convert C c (untuple (VObj T (map (fun kv => (fst kv, dicts C (snd kv))) fsT))) = Ok (VObj c (map (fun kv => (fst kv, untuple (dicts C (snd kv)))) fs))).
  { cbn [untuple]. rewrite map_map. cbn [fst snd]. unfold default_convert. cbn [asdict]. rewrite HT.
    rewrite (as_fields_same (fun x => untuple (dicts C x)) fdsT fsT); [|assumption|].
    - cbn [bind]. apply (make_perm C (fun x => untuple (dicts C x)) c fds fsT fs Hc Hm Hn Hi); [rewrite Hpn; assumption|]. assumption.
    - intros k x Hx. rewrite map_map. cbn [fst snd].
      rewrite (assoc_map (fun x => as_inner C (untuple (dicts C x)))). erewrite assoc_in_nodup; [|rewrite Hpn; assumption|eassumption]. cbn [option_map]. f_equal. apply as_inner_fixed. apply (HpT k x Hx). }
  exists (typed t s). assert (Et : obj_type E c = Some t). { apply obj_type_registered. repeat split; assumption. }
  split.
  - cbn [ser]. rewrite Et. unfold obj_content. rewrite T2, T5, T6. unfold template_ser. rewrite C1. cbn [bind]. rewrite S1. reflexivity.
  - rewrite through_json_ready by (apply typed_ready; assumption). rewrite deser_typed.
    rewrite (str2type_user E t c) by (repeat split; assumption). rewrite deser_obj_eq. unfold de_object. rewrite T2, T5, T7. unfold template_de. rewrite S3. cbn [bind]. rewrite C2. reflexivity.
Qed.
Lemma json_data_untuple v : json_data v -> untuple v = v.
Proof.
  induction v as [a|l IH|l IH|d IH|c fs IH|c m|i|i] using val_ind'; intros H; inversion H as [| l0 Hl|d0 Hk Hn Hd]; subst; cbn [untuple]; [reflexivity|f_equal..].
  - rewrite <- (map_id l) at 2. apply map_ext_in. auto.
  - rewrite <- (map_id d) at 2. apply map_ext_in. intros [k x] Hx. cbn [fst snd]. f_equal. eauto.
Qed.
(** With JSON data in the attributes the object comes back as it was. *)
Theorem C81_json_data_exact : forall C E E0 V fr c t T tT fds fdsT fs,
  templated C E E0 V c t T -> registered E0 T tT -> c_kind (e_class E0 T) = KData fdsT ->
  d_fields C c = Some fds -> d_fields C T = Some fdsT -> made_of fds fs ->
  NoDup (map f_name fdsT) -> Forall (fun f => f_init f = true /\ f_noser f = false) fdsT -> (forall n, In n (map f_name fds) <-> In n (map f_name fdsT)) ->
  (forall k x, In (k, x) fs -> json_data x /\ plain E0 x) ->
  exists p, ser E V false (VObj c fs) = Ok p /\ deser E V (through_json fr p) XNone = Ok (VObj c fs).
Proof.
  intros C E E0 V fr c t T tT fds fdsT fs Ht RT KT Hc HT Hm HnT HiT Hs Hv.
  destruct (C81_template_round_trip C E E0 V fr c t T tT fds fdsT fs Ht RT KT Hc HT Hm HnT HiT Hs) as (p & P1 & P2).
  - intros k x Hx. destruct (Hv k x Hx) as [H1 H2]. destruct (json_data_keys C x H1) as (J1 & J2 & J3). rewrite J3. auto.
  - exists p. split; [assumption|]. rewrite P2. f_equal. f_equal. rewrite <- (map_id fs) at 2. apply map_ext_in. intros [k x] Hx. cbn [fst snd]. f_equal.
    destruct (Hv k x Hx) as [H1 H2]. destruct (json_data_keys C x H1) as (J1 & J2 & J3). rewrite J3. apply json_data_untuple. assumption.
Qed.
(** A dataclass instance inside an attribute is lost, even when its own class is registered: writing and reading succeed,
    what is read is another value, without dataclass instances in its attributes. *)
Theorem C81_nested_dataclass_lost : forall C E E0 V fr c t T tT fds fdsT fs k0 x0,
  templated C E E0 V c t T -> registered E0 T tT -> c_kind (e_class E0 T) = KData fdsT ->
  d_fields C c = Some fds -> d_fields C T = Some fdsT -> made_of fds fs ->
  NoDup (map f_name fdsT) -> Forall (fun f => f_init f = true /\ f_noser f = false) fdsT -> (forall n, In n (map f_name fds) <-> In n (map f_name fdsT)) ->
  (forall k x, In (k, x) fs -> text_keys C x /\ plain E0 (dicts C x)) ->
  In (k0, x0) fs -> has_data C x0 ->
  exists p fs', ser E V false (VObj c fs) = Ok p /\ deser E V (through_json fr p) XNone = Ok (VObj c fs') /\
    VObj c fs' <> VObj c fs /\ forall k x, In (k, x) fs' -> ~ has_data C x.
Proof.
  intros C E E0 V fr c t T tT fds fdsT fs k0 x0 Ht RT KT Hc HT Hm HnT HiT Hs Hv Hx Hd.
  destruct (C81_template_round_trip C E E0 V fr c t T tT fds fdsT fs Ht RT KT Hc HT Hm HnT HiT Hs Hv) as (p & P1 & P2).
  exists p. eexists. split; [assumption|]. split; [eassumption|].
  assert (Hb : forall k x, In (k, x) (map (fun kv => (fst kv, untuple (dicts C (snd kv)))) fs) -> ~ has_data C x).
  { intros k x Hin. apply in_map_iff in Hin as ([k1 x1] & He & _). injection He as _ <-. apply dicts_no_data. }
  split; [|exact Hb]. intros He. assert (He2 : map (fun kv => (fst kv, untuple (dicts C (snd kv)))) fs = fs) by congruence.
  apply (Hb k0 x0); [rewrite He2; assumption|assumption].
Qed.

(** ** Examples *)
(** 0: dataclass Point(x, y), registered; 1: dataclass Leaf(a, b), the template of 20: dataclass Tree(b, a). *)
Definition dex_fields (c : nat) : option (list field) :=
  match c with
  | 0 => Some [mkField ($"x") true None false; mkField ($"y") true (Some (VAtom (AInt 0))) false]
  | 1 => Some [mkField ($"a") true None false; mkField ($"b") true None false]
  | 4 => Some [mkField ($"a") true None false; mkField ($"b") false (Some (VAtom (AInt 1))) false]
  | 20 => Some [mkField ($"b") true None false; mkField ($"a") true None false]
  | _ => None
  end.
Definition dex : denv := mkDenv dex_fields (fun c => match c with 0 => $"Point" | 3 => $"Color" | _ => $"Other" end) (fun _ => []).
Definition dex_class (c : nat) : class :=
  match c with
  | 1 => mkClass ($"Leaf") (Some ($"leaf")) None (KData [mkField ($"a") true None false; mkField ($"b") true None false])
  | 20 => mkClass ($"Tree") (Some ($"tree")) None KUser
  | _ => ex_class false c
  end.
Definition dex_types (t : str) : option nat := assoc t [($"Point", 0); ($"leaf", 1); ($"Color", 3); ($"tree", 20)].
Definition dex_e0 : env := mkEnv dex_class dex_types [] (fun _ _ => Exn TypeError) (fun _ _ => Exn TypeError) (fun e => PDict []) (fun p => Ok p) (fun t p => Exn TypeError).
Definition dex_env : env :=
  mkEnv dex_class dex_types [] (fun c fs => template_ser dex dex_e0 true 1 (VObj c fs)) (fun c p => template_de dex dex_e0 true 1 c p)
    (fun e => PDict []) (fun p => Ok p) (fun t p => Exn TypeError).
Example dex_templated : templated dex dex_env dex_e0 true 20 ($"tree") 1.
Proof. repeat split; try reflexivity. cbn. intuition discriminate. Qed.
(** A point with a list, a dict, a tuple, an Enum member and another point inside. *)
Definition dex_point : list (str * val) :=
  [($"x", VDict [(AStr ($"l"), VList [VAtom (AInt 1); VAtom (AFloat 2)]); (AStr ($"c"), VEnum 3 ($"RED"))]);
   ($"y", VTuple [VObj 0 [($"x", VAtom (AInt 1)); ($"y", VAtom ANone)]])].
Definition dex_point_read : list (str * val) :=
  [($"x", VDict [(AStr ($"l"), VList [VAtom (AInt 1); VAtom (AFloat 2)]); (AStr ($"c"), VAtom (AStr ($"<un-serializable: Color>")))]);
   ($"y", VList [VDict [(AStr ($"x"), VAtom (AInt 1)); (AStr ($"y"), VAtom ANone)]])].
Ltac each := intros; cbn in *; repeat match goal with H : _ \/ _ |- _ => destruct H | H : False |- _ => destruct H | H : (_, _) = (_, _) |- _ => injection H as <- <- end; subst.
Ltac nodup := repeat (constructor; [cbn; intuition discriminate|]); constructor.
Ltac keys := repeat (first [apply tk_atom | apply tk_enum | apply tk_inst | apply tk_list; each | apply tk_tuple; each
  | apply tk_dict; [each; eexists; reflexivity|cbn; nodup|each] | (eapply tk_data; [reflexivity|reflexivity|cbn; nodup|each]) | apply tk_obj; reflexivity]).
Example C80_example_point : made_of [mkField ($"x") true None false; mkField ($"y") true (Some (VAtom (AInt 0))) false] dex_point /\
  (forall k x, In (k, x) dex_point -> text_keys dex x) /\
  (do j <- write_dataclass dex ex_repr (VObj 0 dex_point); read_dataclass dex 0 j) = Ok (VObj 0 dex_point_read) /\
  map (fun kv => (fst kv, flattened dex (snd kv))) dex_point = dex_point_read.
Proof.
  split; [split; [reflexivity|split; [cbn; nodup|repeat constructor]]|]. split; [each; keys|]. split; vm_compute; reflexivity.
Qed.
Example C80_example_exact : let fs := [($"x", VDict [(AStr ($"l"), VList [VAtom (AInt 1)])]); ($"y", VAtom (ABool true))] in
  (forall k x, In (k, x) fs -> json_data x) /\ (do j <- write_dataclass dex ex_repr (VObj 0 fs); read_dataclass dex 0 j) = Ok (VObj 0 fs).
Proof.
  split; [|vm_compute; reflexivity]. each.
  - apply jd_dict; [each; eexists; reflexivity|cbn; nodup|each; apply jd_list; each; constructor].
  - constructor.
Qed.
Example C80_example_lost : (forall k x, In (k, x) dex_point -> whole dex x) /\ (exists k x, In (k, x) dex_point /\ has_object x).
Proof.
  split.
  - each.
    + apply wh_dict; each; [apply wh_list; each; constructor|constructor].
    + apply wh_tuple; each. eapply wh_data; [reflexivity| |each; constructor]. each; cbn; auto.
  - exists ($"y"). eexists. split; [right; left; reflexivity|]. eapply ho_tuple; [left; reflexivity|constructor].
Qed.
Example C80_example_no_init : let fs := [($"a", VAtom (AInt 3)); ($"b", VAtom (AInt 1))] in
  dex_fields 4 = Some [mkField ($"a") true None false; mkField ($"b") false (Some (VAtom (AInt 1))) false] /\
  (do j <- write_dataclass dex ex_repr (VObj 4 fs); read_dataclass dex 4 j) = Exn TypeError.
Proof. split; [reflexivity|vm_compute; reflexivity]. Qed.
(** The tree keeps an Enum member, whose class is registered, but not the point. *)
Definition dex_tree : list (str * val) := [($"b", VList [VObj 0 [($"x", VAtom (AInt 1)); ($"y", VAtom ANone)]]); ($"a", VEnum 3 ($"RED"))].
Example C81_example_tree : registered dex_e0 1 ($"leaf") /\ (forall k x, In (k, x) dex_tree -> text_keys dex x /\ plain dex_e0 (dicts dex x)) /\
  (exists k x, In (k, x) dex_tree /\ has_data dex x) /\
  (do p <- ser dex_env true false (VObj 20 dex_tree); deser dex_env true (through_json ex_repr p) XNone) =
    Ok (VObj 20 [($"b", VList [VDict [(AStr ($"x"), VAtom (AInt 1)); (AStr ($"y"), VAtom ANone)]]); ($"a", VEnum 3 ($"RED"))]).
Proof.
  split; [registered|]. split; [|split; [|vm_compute; reflexivity]].
  - each; (split; [keys|]).
    + apply plain_list. each. apply plain_dict; [each; eexists; (split; [reflexivity|discriminate])|cbn; nodup|each; constructor].
    + eapply plain_enum with (t := $"Color"); [registered|reflexivity|cbn; auto|cbn; intuition discriminate].
  - exists ($"b"). eexists. split; [left; reflexivity|]. eapply hd_list; [left; reflexivity|]. econstructor. reflexivity.
Qed.

Print Assumptions C80_json_data_exact.
Print Assumptions C80_what_comes_back.
Print Assumptions C80_objects_are_lost.
Print Assumptions C80_no_init_no_read.
Print Assumptions C81_template_round_trip.
Print Assumptions C81_json_data_exact.
Print Assumptions C81_nested_dataclass_lost.
Print Assumptions C80_which_files_can_be_read.
