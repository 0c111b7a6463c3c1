(** Property C94: what [is_deserializable] tells about serialized data. *)
From Coq Require Import Ascii String List Bool Arith ZArith Lia.
From Verif Require Import Base SerialModel CheckModel SerialSpec PropsSerial.
Import ListNotations.

(** * The specification *)
Definition first_entry (d : list (atom * pser)) (k : atom) (p : pser) : Prop :=
  exists a b, d = a ++ (k, p) :: b /\ ~ In k (map fst a).
(** A name stands for a type: one of the five markers and wrappers of dman itself or a registered class. *)
Definition known (E : env) (t : str) : Prop :=
  In t [$"__unserializable"; $"__exc_unserializable"; $"__undeserializable"; $"__exc_undeserializable"; $"__instance"] \/ e_types E t <> None.
(** Names under which classes were registered from outside ([register_serializable]) are known, and no type has an empty
    name. *)
Definition named_well (E : env) : Prop :=
  (forall c n, c_custom (e_class E c) = Some n -> known E n) /\ ~ known E [].

Lemma known_iff E t : known E t <-> is_type_str E (Some t) = true.
Proof.
  unfold known, is_type_str, str2type, n_unser, n_exc_unser, n_undeser, n_exc_undeser, n_instance. cbn [In].
  repeat (destruct (str_eq_dec t _) as [->|?]; [split; [reflexivity|intros _; left; auto 8]|]).
  destruct (e_types E t); split; try reflexivity; try discriminate.
  - intros _. right. discriminate.
  - intros [H|H]; [|congruence]. exfalso. intuition congruence.
Qed.
Lemma assoc_a_some {A} k (d : list (atom * A)) p : assoc_a k d = Some p <-> exists a b, d = a ++ (k, p) :: b /\ ~ In k (map fst a).
Proof.
  induction d as [|[x v] d IH]; cbn.
  - split; [discriminate|]. intros ([|? ?] & b & H & _); discriminate.
  - destruct (atom_eq_dec x k) as [->|Hx].
    + split.
      * intros H. inversion H; subst. exists [], d. split; [reflexivity|intros []].
      * intros ([|[y w] a] & b & H & Hn); inversion H; subst; [reflexivity|]. exfalso. apply Hn. left. reflexivity.
    + fold (@assoc_a A k d). rewrite IH. split.
      * intros (a & b & -> & Hn). exists ((x, v) :: a), b. split; [reflexivity|]. cbn. intros [H|H]; [congruence|contradiction].
      * intros ([|[y w] a] & b & H & Hn); inversion H; subst; [congruence|]. exists a, b. split; [reflexivity|]. intros Hi. apply Hn. right. exact Hi.
Qed.
Lemma assoc_a_none {A} k (d : list (atom * A)) : assoc_a k d = None <-> ~ In k (map fst d).
Proof.
  induction d as [|[x v] d IH]; cbn; [split; [intros _ []|reflexivity]|]. destruct (atom_eq_dec x k) as [->|Hx].
  - split; [discriminate|]. intros H. exfalso. apply H. left. reflexivity.
  - fold (@assoc_a A k d). rewrite IH. split; intros H; [intros [G|G]; [congruence|contradiction]|intros G; apply H; right; exact G].
Qed.

(** * The theorems *)
(** When it says yes. *)
Theorem C94_yes_iff : forall E p, is_deserializable E p = Ok true <->
  (exists a, p = PAtom a) \/ (exists l, p = PList l) \/
  exists d t, p = PDict d /\ first_entry d (AStr ($"_ser__type")) (PAtom (AStr t)) /\ t <> [] /\ known E t.
Proof.
  intros E p. unfold first_entry. change ($"_ser__type") with SER_TYPE. destruct p as [a|l|d]; cbn [is_deserializable].
  - split; [intros _; left; exists a; reflexivity|reflexivity].
  - split; [intros _; right; left; exists l; reflexivity|reflexivity].
  - split.
    + destruct (assoc_a (AStr SER_TYPE) d) as [t|] eqn:Et; [|discriminate]. destruct (truthy t) eqn:Eb; [|discriminate].
      destruct t as [[| | | |s]| |]; try discriminate. intros H. inversion H as [H1]. right. right. exists d, s. split; [reflexivity|].
      split; [apply assoc_a_some; exact Et|]. split; [intros ->; discriminate|]. apply known_iff. exact H1.
    + intros [(a & H)|[(l & H)|(d' & t & H & Hf & Ht & Hk)]]; try discriminate. inversion H; subst d'. apply assoc_a_some in Hf. rewrite Hf.
      destruct t as [|c t]; [congruence|]. cbn [truthy]. apply known_iff in Hk. rewrite Hk. reflexivity.
Qed.
Print Assumptions C94_yes_iff.

(** When it raises: the entry for the type is a list or a dict with something in it; and then it is a TypeError. *)
Theorem C94_raises_iff : forall E p e, is_deserializable E p = Exn e <->
  e = TypeError /\ exists d t, p = PDict d /\ first_entry d (AStr ($"_ser__type")) t /\
    ((exists x l, t = PList (x :: l)) \/ (exists x l, t = PDict (x :: l))).
Proof.
  intros E p e. unfold first_entry. change ($"_ser__type") with SER_TYPE. split.
  - destruct p as [a|l|d]; cbn [is_deserializable]; try discriminate.
    destruct (assoc_a (AStr SER_TYPE) d) as [t|] eqn:Et; [|discriminate]. apply assoc_a_some in Et.
    destruct t as [a|[|x l]|[|x l]]; cbn [truthy]; try discriminate.
    + destruct (match a with ANone => _ | _ => _ end); [|discriminate]. destruct a; discriminate.
    + intros H. inversion H. split; [reflexivity|]. exists d, (PList (x :: l)). split; [reflexivity|]. split; [exact Et|]. left. exists x, l. reflexivity.
    + intros H. inversion H. split; [reflexivity|]. exists d, (PDict (x :: l)). split; [reflexivity|]. split; [exact Et|]. right. exists x, l. reflexivity.
  - intros (-> & d & t & -> & Hf & Ht). apply assoc_a_some in Hf. cbn [is_deserializable]. rewrite Hf.
    destruct Ht as [(x & l & ->)|(x & l & ->)]; reflexivity.
Qed.
Print Assumptions C94_raises_iff.
Example C94_raises_example : forall E, is_deserializable E (PDict [(AStr ($"_ser__type"), PList [PAtom ANone])]) = Exn TypeError /\
  is_deserializable E (PDict [(AStr ($"_ser__type"), PList [])]) = Ok false.
Proof. intros E. split; reflexivity. Qed.

(** Whatever serialization makes of a value other than a dict is recognised... *)
Lemma emit_yes E v x p t : finish v t x = Ok p -> (forall q, x <> Ok (inl q)) \/ (t <> [] /\ known E t) -> fst p <> [] /\ known E (fst p).
Proof.
  unfold finish. intros H Ht. destruct x as [[q|i]|e]; cbn [bind] in H; [| |discriminate].
  - inversion H; subst. cbn [fst]. destruct Ht as [Ht|Ht]; [exfalso; exact (Ht q eq_refl)|exact Ht].
  - destruct (process_invalid v); cbn [bind] in H; [|discriminate]. inversion H; subst.
    destruct i; cbn [ser_invalid fst]; (split; [discriminate|]); left; cbn [In]; auto 8.
Qed.
Lemma typed_yes E x : fst x <> [] /\ known E (fst x) -> is_deserializable E (emit false x) = Ok true.
Proof.
  intros [H1 H2]. apply C94_yes_iff. right. right. exists [(AStr SER_TYPE, PAtom (AStr (fst x))); (AStr SER_CONTENT, snd x)], (fst x).
  split; [reflexivity|]. split; [|split; assumption]. exists [], [(AStr SER_CONTENT, snd x)]. split; [reflexivity|intros []].
Qed.
Lemma obj_type_known E c t : named_well E -> obj_type E c = Some t -> t <> [] /\ known E t.
Proof.
  intros [H1 H2]. unfold obj_type. intros H. assert (K : known E t).
  { destruct (c_custom (e_class E c)) as [n|] eqn:Ec; [inversion H; subst; eapply H1; eassumption|].
    destruct (c_type (e_class E c)) as [s|]; [|discriminate]. destruct (is_type_str E (Some s)) eqn:Es; [|discriminate].
    inversion H; subst. apply known_iff. exact Es. }
  split; [intros ->; contradiction|exact K].
Qed.
Theorem C94_results_recognised : forall E validate v p, named_well E -> ser E validate false v = Ok p ->
  (forall d, v <> VDict d) -> is_deserializable E p = Ok true.
Proof.
  intros E validate v p HE H Hd. destruct v as [a|l|l|d|c fs|c m|i|i]; cbn [ser] in H.
  - inversion H; reflexivity.
  - destruct (map_res _ l); cbn [bind] in H; [|discriminate]. inversion H; reflexivity.
  - destruct (map_res _ l); cbn [bind] in H; [|discriminate]. inversion H; reflexivity.
  - exfalso. exact (Hd d eq_refl).
  - destruct (obj_type E c) as [t|] eqn:Et.
    + destruct (finish validate t _) as [x|] eqn:Ef; cbn [bind] in H; [|discriminate]. inversion H; subst. apply typed_yes.
      eapply emit_yes; [exact Ef|]. right. apply obj_type_known in Et; assumption.
    + destruct (finish validate [] _) as [x|] eqn:Ef; cbn [bind] in H; [|discriminate]. inversion H; subst. apply typed_yes.
      eapply emit_yes; [exact Ef|]. left. unfold unserializable. congruence.
  - destruct (obj_type E c) as [t|] eqn:Et.
    + destruct (finish validate t _) as [x|] eqn:Ef; cbn [bind] in H; [|discriminate]. inversion H; subst. apply typed_yes.
      eapply emit_yes; [exact Ef|]. right. apply obj_type_known in Et; assumption.
    + destruct (finish validate [] _) as [x|] eqn:Ef; cbn [bind] in H; [|discriminate]. inversion H; subst. apply typed_yes.
      eapply emit_yes; [exact Ef|]. left. unfold unserializable. congruence.
  - destruct (inst_name (e_insts E) i) as [n|].
    + cbn in H. inversion H; subst. apply (typed_yes E (n_instance, PAtom (AStr n))). split; [discriminate|]. left. cbn [In fst]. auto 8.
    + destruct (finish validate [] _) as [x|] eqn:Ef; cbn [bind] in H; [|discriminate]. inversion H; subst. apply typed_yes.
      eapply emit_yes; [exact Ef|]. left. unfold unserializable. congruence.
  - inversion H; subst. apply typed_yes. destruct i; cbn [ser_invalid fst]; (split; [discriminate|]); left; cbn [In]; auto 8.
Qed.
Print Assumptions C94_results_recognised.

(** ... but no ordinary dict is, although it is deserialized to a dict like any other result. *)
Lemma ser_dict_keys E validate d p : ser E validate false (VDict d) = Ok p -> exists d', p = PDict d' /\ map fst d' = map fst d.
Proof.
  cbn [ser]. intros H. destruct (map_res _ d) as [d'|] eqn:Em; cbn [bind] in H; [|discriminate]. inversion H; subst. exists d'. split; [reflexivity|].
  clear H. revert d' Em. induction d as [|[k v] d IH]; intros d' Em; cbn [map_res] in Em; [inversion Em; reflexivity|].
  cbn [fst snd] in Em. destruct (ser E validate false v) as [q|]; cbn [bind] in Em; [|discriminate].
  destruct (map_res _ d) as [r|] eqn:Er in Em; cbn [bind] in Em; [|discriminate]. inversion Em; subst. cbn [map fst]. f_equal. apply IH. exact Er.
Qed.
Theorem C94_dicts_not_recognised : forall E validate d p, ~ In (AStr ($"_ser__type")) (map fst d) ->
  ser E validate false (VDict d) = Ok p ->
  is_deserializable E p = Ok false /\ forall x, deser E validate p XNone = Ok x -> exists d', x = VDict d' /\ map fst d' = map fst d.
Proof.
  intros E validate d p Hk H. apply ser_dict_keys in H as (d' & -> & Hm). assert (N : assoc_a (AStr SER_TYPE) d' = None).
  { apply assoc_a_none. rewrite Hm. exact Hk. }
  split; [cbn [is_deserializable]; rewrite N; reflexivity|]. intros x Hx. unfold deser in Hx. cbn [deser_z fst inner_expected inner_none] in Hx.
  rewrite N in Hx. unfold check, de_dict in Hx. destruct (map_res _ _) as [r|] eqn:Er in Hx; cbn [bind] in Hx; [|discriminate].
  inversion Hx; subst. exists r. split; [reflexivity|]. rewrite <- Hm. clear - Er. revert r Er.
  induction d' as [|[k v] d IH]; intros r Er; cbn [map map_res] in Er; [inversion Er; reflexivity|].
  cbn [fst snd] in Er. destruct (fst (deser_z E validate v) XNone) as [q|]; cbn [bind] in Er; [|discriminate].
  destruct (map_res _ (map _ d)) as [r'|] eqn:Er' in Er; cbn [bind] in Er; [|discriminate]. inversion Er; subst. cbn [map fst]. f_equal. apply IH. exact Er'.
Qed.
Print Assumptions C94_dicts_not_recognised.

(** A yes promises nothing about what is inside: a list is recognised although one of its items has an unknown type, on
    which deserialization stops if validation is on. *)
Theorem C94_yes_promises_nothing : forall E a t content b, Forall (fun p => exists x, p = PAtom x) a -> ~ known E t ->
  is_deserializable E (PList (a ++ typed t content :: b)) = Ok true /\
  is_deserializable E (typed t content) = Ok false /\
  deser E true (PList (a ++ typed t content :: b)) XNone = Exn ValidationError.
Proof.
  intros E a t content b Ha Ht. assert (Hn : is_type_str E (Some t) = false).
  { destruct (is_type_str E (Some t)) eqn:G; [|reflexivity]. exfalso. apply Ht. apply known_iff. exact G. }
  assert (Hs : str2type E t = None). { cbn in Hn. destruct (str2type E t); [discriminate|reflexivity]. }
  split; [reflexivity|]. split.
  - cbn. rewrite Hs. destruct t; reflexivity.
  - unfold deser. cbn [deser_z fst inner_expected inner_none]. unfold de_list.
    match goal with |- check _ (bind (map_res ?f _) _) = _ => assert (G : map_res f (map (fun q => (q, deser_z E true q)) (a ++ typed t content :: b)) = Exn ValidationError) end.
    { induction Ha as [|p a (x & ->) _ IH].
      - cbn [app map map_res fst snd typed]. unfold typed. cbn [deser_z fst inner_expected inner_none].
        assert (Q : assoc_a (AStr SER_TYPE) [(AStr SER_TYPE, PAtom (AStr t)); (AStr SER_CONTENT, content)] = Some (PAtom (AStr t))) by reflexivity.
        rewrite Q, Hs. reflexivity.
      - cbn [app map map_res fst snd bind]. rewrite IH. reflexivity. }
    rewrite G. reflexivity.
Qed.
Print Assumptions C94_yes_promises_nothing.
Example C94_example :
  ser (ex_env false true) false false (VDict [(AStr ($"a"), VAtom (AInt 1))]) = Ok (PDict [(AStr ($"a"), PAtom (AInt 1))]) /\
  is_deserializable (ex_env false true) (PDict [(AStr ($"a"), PAtom (AInt 1))]) = Ok false /\
  deser (ex_env false true) false (PDict [(AStr ($"a"), PAtom (AInt 1))]) XNone = Ok (VDict [(AStr ($"a"), VAtom (AInt 1))]) /\
  is_deserializable (ex_env false true) (typed ($"Point") (PList [])) = Ok true /\
  ~ known (ex_env false true) ($"nowhere").
Proof.
  repeat (split; [vm_compute; reflexivity|]). rewrite known_iff. vm_compute. discriminate.
Qed.
Example C94_example_env : named_well (ex_env false true).
Proof.
  split; [|rewrite known_iff; vm_compute; discriminate].
  intros c n. do 9 (destruct c as [|c]; [cbn; intros H; inversion H; apply known_iff; vm_compute; reflexivity|]). discriminate.
Qed.
