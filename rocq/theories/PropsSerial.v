(** Properties of serialization without files: C20-C29, C61-C62. *)
From Coq Require Import List Ascii String Bool Arith ZArith Lia.
From Verif Require Import Base PosixModel FsModel PathModel SerialModel SerialSpec FsProof SerialProof SerialFaults SerialMore.
Import ListNotations.

(** * Surroundings for the examples *)
(** 0: dataclass Point(x, y); 1: dataclass Box(content, cache) with cache not serialized; 2: class with
    methods that raise; 3: Enum Color; 4: dataclass with an [init=False] field; 5: not registered;
    6: undecorated subclass of Point; 7: registered with functions that raise; 8: Enum with dots. *)
Definition ex_class (broken : bool) (c : nat) : class :=
  match c with
  | 0 => mkClass ($"Point") (Some ($"Point")) None (KData [mkField ($"x") true None false; mkField ($"y") true (Some (VAtom (AInt 0))) false])
  | 1 => mkClass ($"Box") (Some ($"box")) None (KData [mkField ($"content") true None false; mkField ($"cache") true (Some (VAtom ANone)) true])
  | 2 => mkClass ($"Moody") (Some ($"Moody")) None KUser
  | 3 => mkClass ($"Color") (Some ($"Color")) None (KEnum [$"RED"; $"BLUE"])
  | 4 => mkClass ($"Odd") (Some ($"Odd")) None (KData [mkField ($"a") true None false; mkField ($"b") false (Some (VAtom (AInt 1))) false])
  | 6 => mkClass ($"SubPoint") (Some ($"Point")) None (KData [mkField ($"x") true None false; mkField ($"y") true (Some (VAtom (AInt 0))) false])
  | 7 => mkClass ($"Ext") None (Some ($"ext")) KNone
  | 8 => mkClass ($"Dot") (Some ($"Dot")) None (KEnum [$"v1.0"; $"0"])
  | _ => mkClass ($"Stranger") None None KNone
  end.
Definition ex_types (extra : bool) (t : str) : option nat :=
  assoc t ([($"Point", 0); ($"box", 1); ($"Moody", 2); ($"Color", 3); ($"Odd", 4); ($"ext", 7); ($"Dot", 8)]
           ++ if extra then [($"late", 0)] else []).
Definition ex_env (broken extra : bool) : env :=
  mkEnv (ex_class broken) (ex_types extra) [($"f", 10); ($"g", 11)]
    (fun c fs => if broken then Exn (UserError ($"no")) else Ok (inl (PAtom (AStr ($"moody")))))
    (fun c p => if broken then Exn (UserError ($"no")) else Ok (VObj c []))
    (fun e => PDict [(key "stacks", PList [])])
    (fun p => Ok p)
    (fun t p => Exn TypeError).
Definition ex_repr (z : Z) : str := $"1.5".

Example ex_tame b x : tame (ex_env b x).
Proof. repeat split; intros; destruct b; cbn in *; try discriminate; try (inversion H; reflexivity). Qed.
Example ex_traces b x : json_traces (ex_env b x).
Proof.
  intro e. cbn. constructor.
  - intros k y [H|[]]; inversion H; eexists; reflexivity.
  - repeat constructor; intros [].
  - intros k y [H|[]]; inversion H; subst. constructor. intros z [].
Qed.
Ltac registered := split; [reflexivity|split; [reflexivity|split; [reflexivity|cbn; intuition discriminate]]].
Example ex_point b x : registered (ex_env b x) 0 ($"Point").
Proof. registered. Qed.
Example ex_box b x : registered (ex_env b x) 1 ($"box").
Proof. registered. Qed.

Definition ex_value : val :=
  VDict [(AStr ($"points"), VTuple [VObj 0 [($"x", VAtom (AInt 1)); ($"y", VList [VInst 10])]; VEnum 3 ($"RED")]);
         (AStr ($"box"), VObj 1 [($"content", VAtom (AFloat 3)); ($"cache", VAtom ANone)])].
Lemma ex_fields (fds : list field) (fs : list (str * val)) (P : val -> Prop) :
  Forall2 (fun f kv => f_noser f = false -> P (snd kv)) fds fs ->
  forall f k x, In (f, (k, x)) (combine fds fs) -> f_noser f = false -> P x.
Proof.
  induction 1 as [|f kv fds fs H H' IH]; intros g k x Hi Hn; [destruct Hi|].
  destruct Hi as [Hi|Hi]; [inversion Hi; subst; apply H; assumption|eapply IH; eassumption].
Qed.
Example ex_plain : plain (ex_env false false) ex_value.
Proof.
  assert (D : plain (ex_env false false) (VObj 0 [($"x", VAtom (AInt 1)); ($"y", VList [VInst 10])])).
  { eapply plain_obj; [apply ex_point|reflexivity| |].
    - split; [repeat constructor; cbn; intuition discriminate|]. repeat constructor; discriminate.
    - apply ex_fields. constructor; [intros _; constructor|]. constructor; [|constructor]. intros _.
      + constructor. intros x [<-|[]]. apply plain_inst with (n := $"f"); [repeat constructor; cbn; intuition discriminate|left; reflexivity]. }
  constructor.
  - intros k x [H|[H|[]]]; inversion H; subst; eexists; (split; [reflexivity|discriminate]).
  - repeat constructor; cbn; intuition discriminate.
  - intros k x [H|[H|[]]]; inversion H; subst.
    + constructor. intros x [<-|[<-|[]]]; [assumption|].
      apply plain_enum with (t := $"Color") (ms := [$"RED"; $"BLUE"]); [registered|reflexivity|left; reflexivity|cbn; intuition discriminate].
    + apply plain_obj with (t := $"box") (fds := [mkField ($"content") true None false; mkField ($"cache") true (Some (VAtom ANone)) true]); [apply ex_box|reflexivity| |].
      * split; [repeat constructor; cbn; intuition discriminate|]. repeat constructor; discriminate.
      * apply ex_fields. constructor; [intros _; constructor|]. constructor; [intros _; constructor|constructor].
Qed.

(** * C20 *)
(** Plain data of any depth comes back from serialize, JSON and deserialize, tuples as lists; with and
    without validation. *)
Theorem C20_plain_data_round_trip : forall E V float_repr v, plain E v ->
  exists s, ser E V false v = Ok s /\ deser E V (through_json float_repr s) XNone = Ok (untuple v).
Proof.
  intros E V fr v H. destruct (plain_coded E v H) as (p & P1 & P2 & P3 & _). exists p. split; [apply P1|].
  rewrite through_json_ready by assumption. apply P3.
Qed.
(** Saving what was loaded gives the same data again. *)
Theorem C20_resave_is_stable : forall E V float_repr v s w, plain E v ->
  ser E V false v = Ok s -> deser E V (through_json float_repr s) XNone = Ok w ->
  ser E V false w = Ok (through_json float_repr s).
Proof.
  intros E V fr v s w H Hs Hw. destruct (plain_coded E v H) as (p & P1 & P2 & P3 & P4).
  assert (p = s) by (specialize (P1 V); congruence); subst p. rewrite through_json_ready in * by assumption.
  specialize (P3 V). assert (w = untuple v) by congruence; subst. apply P4.
Qed.
Example C20_nontrivial : exists s, ser (ex_env false false) false false ex_value = Ok s /\ plain (ex_env false false) ex_value /\
  deser (ex_env false false) false (through_json ex_repr s) XNone = Ok (untuple ex_value) /\ untuple ex_value <> ex_value.
Proof. eexists. split; [vm_compute; reflexivity|]. split; [apply ex_plain|]. split; [vm_compute; reflexivity|discriminate]. Qed.
Print Assumptions C20_plain_data_round_trip.
Print Assumptions C20_resave_is_stable.

(** * C21 *)
Theorem C21_content_only_round_trip : forall E V float_repr v, plain E v ->
  exists s, ser E V true v = Ok s /\ deser E V (through_json float_repr s) (type_of v) = Ok (untuple v).
Proof.
  intros E V fr v H. destruct (plain_content E v H) as (s & S1 & S2 & S3). exists s. split; [apply S1|].
  rewrite through_json_ready by assumption. apply S3.
Qed.
Example C21_nontrivial : exists s, ser (ex_env false false) false true (VObj 0 [($"x", VAtom (AInt 1)); ($"y", VAtom ANone)]) = Ok s /\
  s = PDict [(key "x", PAtom (AInt 1)); (key "y", PAtom ANone)] /\
  deser (ex_env false false) false s (XCls (CUser 0)) = Ok (VObj 0 [($"x", VAtom (AInt 1)); ($"y", VAtom ANone)]).
Proof. eexists. split; [vm_compute; reflexivity|]. split; reflexivity. Qed.
Print Assumptions C21_content_only_round_trip.

(** * C22 *)
(** With validation off, serialize never raises when user methods do not raise SerializationError. *)
Theorem C22_serialize_never_raises : forall E content_only v, tame E -> exists p, ser E false content_only v = Ok p.
Proof. intros; apply ser_total; assumption. Qed.
(** An object that cannot be serialized is replaced by a marker... *)
Theorem C22_marker_instead_of_object : forall E v, tame E -> unserializable_obj E v ->
  exists m, ser E false false v = Ok m /\ marker m.
Proof.
  intros E v T H. destruct (unser_marker E v T H false) as (i & Hi). eexists. split; [exact Hi|].
  unfold emit. econstructor; [apply ser_invalid_name|reflexivity].
Qed.
(** ... and the rest of the result does not depend on what stands at that position. *)
Theorem C22_serialize_contained : forall E x, tame E -> visited E x ->
  exists y, forall v, exists p, ser E false false v = Ok p /\ ser E false false (fill x v) = Ok (pfill y p).
Proof. intros; apply contained; assumption. Qed.
Theorem C22_deserialize_contained : forall E y, reads E y ->
  exists x, forall p v, deser E false p XNone = Ok v -> deser E false (pfill y p) XNone = Ok (fill x v).
Proof. intros; apply deser_position; assumption. Qed.
(** Data that its class rejects becomes a marker holding the data. *)
Theorem C22_rejected_data_kept : forall E t p, tame E -> rejects E t p ->
  exists info trace, deser E false (typed t p) XNone = Ok (VInvalid (IExcUndeser (Some t) info trace p (Some t))).
Proof.
  intros E t p T H. destruct (rejects_marker E t p T H) as (c & e & Hc & Hm). rewrite deser_typed, Hc, Hm.
  eexists; eexists; reflexivity.
Qed.
(** A SerializationError of a user method is not contained: it escapes even with validation off. *)
Theorem C22_serialization_error_escapes : forall E V content_only c fs e, by_user E c ->
  e_ser E c fs = Exn e -> escapes e = true -> ser E V content_only (VObj c fs) = Exn e.
Proof.
  intros E V co c fs e B He Hs. cbn [ser]. destruct (known_type E c (by_user_known _ _ B)) as (t & Ht).
  rewrite Ht, (by_user_method E c) by assumption. rewrite He. unfold call_ser. change (is_ser_error e = true) in Hs. rewrite Hs. reflexivity.
Qed.
Definition ex_ctx : vctx := XInDict [(AStr ($"a"), VObj 5 [])] (AStr ($"b"))
   (XInList [VEnum 3 ($"RED")] (XInObj 0 [] ($"x") XHole [($"y", VObj 2 [])]) []) [].
Example C22_visited : tame (ex_env true false) /\ visited (ex_env true false) ex_ctx.
Proof.
  split; [apply ex_tame|]. cbn. split; [exact I|]. split; [tauto|].
  exists [mkField ($"x") true None false; mkField ($"y") true (Some (VAtom (AInt 0))) false], (mkField ($"x") true None false).
  repeat split.
  - eapply registered_known. apply ex_point.
  - repeat constructor; cbn; intuition discriminate.
  - left; reflexivity.
  - intros g [<-|[<-|[]]] _; cbn; auto.
Qed.
Example C22_unserializable : unserializable_obj (ex_env true false) (VObj 5 []) /\ unserializable_obj (ex_env true false) (VObj 2 []) /\ unserializable_obj (ex_env true false) (VObj 0 []) /\ unserializable_obj (ex_env true false) (VInst 7).
Proof.
  repeat split.
  - apply uo_unknown. intros [H|(t & H & _)]; [apply H; reflexivity|discriminate].
  - eapply uo_raise; [|reflexivity|reflexivity]. right. split; [|reflexivity]. right. exists ($"Moody"). split; [reflexivity|left; discriminate].
  - eapply uo_attr with (f := mkField ($"x") true None false); [repeat split; eapply registered_known; apply ex_point|left; reflexivity|reflexivity|intros []].
  - apply uo_inst. intros n [H|[H|[]]]; discriminate.
Qed.
Example C22_reads : reads (ex_env true false)
  (YInList [typed ($"Moody") (PAtom (AInt 3))] (YInDict [(AStr SER_TYPE, PAtom (AStr ($"Point")))] (AStr SER_CONTENT) (YInDict [] (AStr ($"x")) YHole []) []) []).
Proof.
  constructor.
  - eapply rd_obj with (c := 0) (f := mkField ($"x") true None false); [apply ex_point|reflexivity| | | | | | | | |].
    + repeat constructor; cbn; intuition discriminate.
    + constructor.
    + intros kq [].
    + left; reflexivity.
    + reflexivity.
    + reflexivity.
    + intros [].
    + intros n [<-|[]]. eexists. split; [left; reflexivity|]. split; reflexivity.
    + intros g [<-|[<-|[]]] _ H; [left; reflexivity|discriminate].
  - intros q [<-|[]]. eexists. vm_compute. reflexivity.
Qed.
Print Assumptions C22_serialize_never_raises.
Print Assumptions C22_marker_instead_of_object.
Print Assumptions C22_serialize_contained.
Print Assumptions C22_deserialize_contained.
Print Assumptions C22_rejected_data_kept.
Print Assumptions C22_serialization_error_escapes.

(** * C23 *)
(** With validation on, serialize raises ValidationError exactly when a part that cannot be serialized
    is met; otherwise the result is the one without validation. *)
Theorem C23_serialize_validates : forall E content_only v, tame E ->
  (hits E v -> ser E true content_only v = Exn ValidationError) /\
  (~ hits E v -> ser E true content_only v = ser E false content_only v) /\
  (ser E true content_only v = Exn ValidationError <-> hits E v).
Proof.
  intros E co v T. destruct (ser_total E co v T) as (p & Hp).
  destruct (ser_validate E T v co) as [(N & Ee)|(Y & Ee)]; repeat split; try tauto; try congruence.
Qed.
(** With validation on, deserialize raises ValidationError exactly when the result without validation
    holds a marker (data stored by a failed load with unregistered type excepted). *)
Theorem C23_deserialize_validates : forall E p v, open_markers E -> tame E -> json_ready p -> ~ mentions n_undeser p ->
  deser E false p XNone = Ok v ->
  (has_marker v -> deser E true p XNone = Exn ValidationError) /\
  (~ has_marker v -> deser E true p XNone = Ok v).
Proof.
  intros E p v OM T Hr Hm Hv. destruct (proj1 (deser_drel E OM p True Hr (fun _ => Hm)) XNone (xok_none True)) as [(Ee & C)|(Ee & C)].
  - split; intro H; [exfalso; eapply C; eassumption|congruence].
  - split; intro H; [assumption|]. exfalso. apply H. apply (C I). assumption.
Qed.
(** Without that exception: a validated result never differs and never holds a marker. *)
Theorem C23_validated_result_is_valid : forall E p v, open_markers E -> json_ready p ->
  deser E true p XNone = Ok v -> deser E false p XNone = Ok v /\ ~ has_marker v.
Proof.
  intros E p v OM Hr Hv. destruct (proj1 (deser_drel E OM p False Hr (fun f => False_ind _ f)) XNone (xok_none False)) as [(Ee & C)|(Ee & C)].
  - split; [congruence|]. apply C. congruence.
  - congruence.
Qed.
Example C23_hits : hits (ex_env true false) (fill ex_ctx (VAtom ANone)) /\ ~ hits (ex_env false false) ex_value.
Proof.
  split.
  - eapply hits_dict; [left; reflexivity|]. apply hits_here. apply C22_unserializable.
  - intro H. apply (proj2 (proj2 (C23_serialize_validates (ex_env false false) false ex_value (ex_tame _ _)))) in H. vm_compute in H. discriminate.
Qed.
Example C23_open b x : open_markers (ex_env b x).
Proof.
  split.
  - intros c p v H M. destruct b; cbn in H; [discriminate|]. inversion H; subst. inversion M as [| | | |? ? ? ? Hi ?]; subst. destruct Hi.
  - intros c fds f v Hk Hf Hd. do 9 (destruct c as [|c]; cbn in Hk; [try discriminate; inversion Hk; subst;
      repeat (destruct Hf as [<-|Hf]; [cbn in Hd; try discriminate; inversion Hd; subst; intro M; inversion M|]); try destruct Hf|]); discriminate.
Qed.
Example C23_both : deser (ex_env true false) false (typed ($"Moody") (PAtom (AInt 3))) XNone <> Exn ValidationError /\
  deser (ex_env true false) true (typed ($"Moody") (PAtom (AInt 3))) XNone = Exn ValidationError.
Proof. split; [vm_compute; discriminate|vm_compute; reflexivity]. Qed.
(** Data holding a stored Undeserializable: markers met inside it may be dropped from the result. *)
Definition ex_undeser : pser :=
  typed n_undeser (PDict [(key "type", typed ($"late") (PDict [])); (key "info", PAtom (AStr [])); (key "serialized", PAtom (AInt 5))]).
Theorem C23_stored_undeserializable_refuted : exists E p v, open_markers E /\ tame E /\ json_ready p /\
  deser E false p XNone = Ok v /\ ~ has_marker v /\ deser E true p XNone = Exn ValidationError.
Proof.
  exists (ex_env false false), ex_undeser, (VAtom (AInt 5)). split; [apply C23_open|]. split; [apply ex_tame|]. split.
  - apply typed_ready. constructor.
    + intros k x [H|[H|[H|[]]]]; inversion H; eexists; reflexivity.
    + repeat constructor; cbn; intuition discriminate.
    + intros k x [H|[H|[H|[]]]]; inversion H; subst; try constructor.
      * intros k x [H'|[H'|[]]]; inversion H'; eexists; reflexivity.
      * repeat constructor; cbn; intuition discriminate.
      * intros k x [H'|[H'|[]]]; inversion H'; subst; constructor; try (intros ? ? []); constructor.
  - split; [vm_compute; reflexivity|]. split; [intro H; inversion H|vm_compute; reflexivity].
Qed.
Print Assumptions C23_stored_undeserializable_refuted.
Print Assumptions C23_serialize_validates.
Print Assumptions C23_deserialize_validates.
Print Assumptions C23_validated_result_is_valid.

(** * C24 *)
(** Data rejected by its class can be loaded and saved any number of times while the class is broken
    (in a different way each time); once the class accepts it again, the result is what the class makes
    of the original data. *)
Theorem C24_rejected_data_recoverable : forall float_repr Es t p, json_ready p -> p <> PAtom ANone ->
  Forall (fun E => tame E /\ json_traces E /\ rejects E t p) Es ->
  (exists s, reloads float_repr Es (typed t p) s) /\
  forall s, reloads float_repr Es (typed t p) s ->
  forall E V c, registered E c t -> deser E V s XNone = deser E V (typed t p) XNone.
Proof.
  intros fr Es t p Hr Hp H. destruct (reloads_stores fr Es t p Hr Hp H (typed t p) (st_plain t p)) as (H1 & H2).
  split; [assumption|]. intros s Hs E V c (R1 & R2 & R3 & R4). specialize (H2 s Hs).
  rewrite (stores_deser E V t p s (CUser c) Hp (str2type_user E t c R4 R3) H2).
  rewrite (stores_deser E V t p (typed t p) (CUser c) Hp (str2type_user E t c R4 R3) (st_plain t p)). reflexivity.
Qed.
(** Not so when the data is [None]: from then on every load gives a marker. *)
Theorem C24_null_content_is_lost : forall float_repr E1 Es t s, tame E1 -> json_traces E1 -> Forall json_traces Es ->
  rejects E1 t (PAtom ANone) -> reloads float_repr (E1 :: Es) (typed t (PAtom ANone)) s ->
  forall E V v, deser E V s XNone = Ok v -> exists i, v = VInvalid i.
Proof.
  intros fr E1 Es t s T J JE Hrej Hrl E V v Hv. inversion Hrl as [|E0 Es0 s0 v1 s1 s2 H1 H2 H3]; subst.
  destruct (rejects_marker E1 t _ T Hrej) as (c & e & Hc & Hm). rewrite deser_typed, Hc, Hm in H1. cbn in H1. inversion H1; subst v1. clear H1.
  cbn [ser] in H2. inversion H2; subst s1. clear H2.
  match type of H3 with reloads _ _ (through_json _ (typed ?nm (PDict ?d))) _ => set (dd := d) in *; assert (D : dead n_exc_undeser (PDict dd)) end.
  { apply (dead_exc dd ($"serialized")).
    - constructor.
      + intros k x Hi. cbn in Hi. repeat (destruct Hi as [Hi|Hi]; [inversion Hi; eexists; reflexivity|]). destruct Hi.
      + cbn. repeat constructor; cbn; intuition discriminate.
      + intros k x Hi. cbn in Hi. repeat (destruct Hi as [Hi|Hi]; [inversion Hi; subst; (apply J || constructor)|]). destruct Hi.
    - cbn; tauto.
    - cbn. intuition discriminate. }
  rewrite through_json_ready in H3 by (apply typed_ready; apply D).
  pose proof (dead_reloads fr Es _ _ D JE _ (st_plain _ _) _ H3) as St.
  destruct (dead_deser E V _ _ _ _ D St Hv) as (e' & ->). eexists; reflexivity.
Qed.
(** Nor for a class registered by functions with [register_serializable], which has no type attribute. *)
Theorem C24_function_registered_is_lost : forall float_repr E1 Es c t p e s, json_traces E1 -> Forall json_traces Es ->
  json_ready p -> e_types E1 t = Some c -> ~ In t reserved_names -> c_custom (e_class E1 c) = Some t -> c_type (e_class E1 c) = None ->
  e_de E1 c p = Exn e -> escapes e = false ->
  reloads float_repr (E1 :: Es) (typed t p) s ->
  forall E V v, deser E V s XNone = Ok v -> exists i, v = VInvalid i.
Proof.
  intros fr E1 Es c t p e s J JE Hp Ht Hn Hc Hty He Hs Hrl E V v Hv. inversion Hrl as [|E0 Es0 s0 v1 s1 s2 H1 H2 H3]; subst.
  rewrite deser_typed, (str2type_user E1 t c), deser_obj_eq in H1 by assumption. unfold de_object in H1. rewrite Hc, He in H1.
  unfold call_de in H1. change (is_ser_error e = false) in Hs; rewrite Hs in H1. cbn [type2str] in H1. rewrite Hty in H1. cbn in H1. inversion H1; subst v1. clear H1.
  cbn [ser] in H2. inversion H2; subst s1. clear H2.
  match type of H3 with reloads _ _ (through_json _ (typed ?nm (PDict ?d))) _ => set (dd := d) in *; assert (D : dead n_exc_undeser (PDict dd)) end.
  { apply (dead_exc dd ($"expected")).
    - unfold dd, nn_entry. constructor.
      + intros k x Hi. destruct p as [[]| |]; cbn in Hi; repeat (destruct Hi as [Hi|Hi]; [inversion Hi; eexists; reflexivity|]); destruct Hi.
      + destruct p as [[]| |]; cbn; repeat constructor; cbn; intuition discriminate.
      + intros k x Hi. destruct p as [[]| |]; cbn in Hi; repeat (destruct Hi as [Hi|Hi]; [inversion Hi; subst; (apply J || assumption || constructor)|]); destruct Hi.
    - cbn; tauto.
    - unfold dd, nn_entry. destruct p as [[]| |]; cbn; intuition discriminate. }
  rewrite through_json_ready in H3 by (apply typed_ready; apply D).
  pose proof (dead_reloads fr Es _ _ D JE _ (st_plain _ _) _ H3) as St.
  destruct (dead_deser E V _ _ _ _ D St Hv) as (e' & ->). eexists; reflexivity.
Qed.
Example C24_rejects : rejects (ex_env true false) ($"Moody") (PAtom (AInt 3)) /\
  rejects (ex_env true false) ($"Point") (PDict [(key "z", PAtom (AInt 3))]) /\
  rejects (ex_env true false) ($"Moody") (PAtom ANone).
Proof.
  repeat split.
  - eapply rj_user with (c := 2); [registered|reflexivity|reflexivity|reflexivity].
  - eapply rj_extra with (c := 0); [apply ex_point|reflexivity|reflexivity|left; reflexivity|]. intros f [<-|[<-|[]]] _; discriminate.
  - eapply rj_user with (c := 2); [registered|reflexivity|reflexivity|reflexivity].
Qed.
Example C24_recovered : exists s, reloads ex_repr [ex_env true false; ex_env true true] (typed ($"Moody") (PAtom (AInt 3))) s /\
  deser (ex_env false false) true s XNone = Ok (VObj 2 []).
Proof. eexists. split; [econstructor; [vm_compute; reflexivity|vm_compute; reflexivity|econstructor; [vm_compute; reflexivity|vm_compute; reflexivity|constructor]]|vm_compute; reflexivity]. Qed.
Example C24_functions : exists s, reloads ex_repr [ex_env true false] (typed ($"ext") (PAtom (AInt 3))) s.
Proof. eexists. econstructor; [vm_compute; reflexivity|vm_compute; reflexivity|constructor]. Qed.
Print Assumptions C24_rejected_data_recoverable.
Print Assumptions C24_null_content_is_lost.
Print Assumptions C24_function_registered_is_lost.

(** * C25 *)
(** Data of an unregistered type that was loaded and saved again never becomes a value again, whatever
    is registered later. *)
Theorem C25_unregistered_type_not_recoverable : forall float_repr E1 Es t p s,
  json_traces E1 -> Forall json_traces Es -> json_ready p -> e_types E1 t = None -> ~ In t reserved_names ->
  reloads float_repr (E1 :: Es) (typed t p) s ->
  forall E V v, deser E V s XNone = Ok v -> exists i, v = VInvalid i.
Proof.
  intros fr E1 Es t p s J JE Hp Ht Hn Hrl E V v Hv. inversion Hrl as [|E0 Es0 s0 v1 s1 s2 H1 H2 H3]; subst.
  rewrite deser_typed, (str2type_none E1 t) in H1 by assumption. cbn in H1. inversion H1; subst v1. clear H1.
  cbn [ser] in H2. inversion H2; subst s1. clear H2.
  match type of H3 with reloads _ _ (through_json _ (typed ?nm (PDict ?d))) _ => set (dd := d) in *; assert (D : dead n_undeser (PDict dd)) end.
  { apply dead_undeser.
    - unfold dd, nn_entry. constructor.
      + intros k x Hi. destruct p as [[]| |]; cbn in Hi; repeat (destruct Hi as [Hi|Hi]; [inversion Hi; eexists; reflexivity|]); destruct Hi.
      + destruct p as [[]| |]; cbn; repeat constructor; cbn; intuition discriminate.
      + intros k x Hi. destruct p as [[]| |]; cbn in Hi; repeat (destruct Hi as [Hi|Hi]; [inversion Hi; subst; (assumption || constructor)|]); destruct Hi.
    - unfold dd, nn_entry. destruct p as [[]| |]; reflexivity.
    - unfold dd, nn_entry. destruct p as [[]| |]; cbn; tauto. }
  rewrite through_json_ready in H3 by (apply typed_ready; apply D).
  pose proof (dead_reloads fr Es _ _ D JE _ (st_plain _ _) _ H3) as St.
  destruct (dead_deser E V _ _ _ _ D St Hv) as (e' & ->). eexists; reflexivity.
Qed.
Example C25_lost : exists s, reloads ex_repr [ex_env false false] (typed ($"late") (PDict [(key "x", PAtom (AInt 1))])) s /\
  (exists fs, deser (ex_env false true) false (typed ($"late") (PDict [(key "x", PAtom (AInt 1))])) XNone = Ok (VObj 0 fs)) /\
  exists i, deser (ex_env false true) false s XNone = Ok (VInvalid i).
Proof.
  eexists. split; [econstructor; [vm_compute; reflexivity|vm_compute; reflexivity|constructor]|].
  split; eexists; vm_compute; reflexivity.
Qed.
Print Assumptions C25_unregistered_type_not_recoverable.

(** * C26 *)
(** Dicts with atomic keys and plain values. *)
Theorem C26_dict_round_trip_iff : forall float_repr E V d, NoDup (map fst d) -> (forall k x, In (k, x) d -> plain E x) ->
  (forall k t, In (k, VAtom (AStr t)) d -> json_key float_repr k = SER_TYPE -> str2type E t = None) ->
  exists s, ser E V false (VDict d) = Ok s /\
    (deser E V (through_json float_repr s) XNone = Ok (VDict (map (fun kv => (AStr (json_key float_repr (fst kv)), untuple (snd kv))) d))
     <-> NoDup (map (fun kv => json_key float_repr (fst kv)) d) /\ ~ In SER_TYPE (map (fun kv => json_key float_repr (fst kv)) d)).
Proof.
  intros fr E V d Hn Hp Hu.
  assert (Hk : map fst (stringed fr d) = map (fun kv => json_key fr (fst kv)) d) by (unfold stringed; rewrite map_map; reflexivity).
  destruct (in_dec str_eq_dec SER_TYPE (map fst (stringed fr d))) as [Hi|Hi].
  - destruct (dict_reserved fr E V d Hp Hi Hu) as (s & Hs & Hr). exists s. split; [assumption|]. split.
    + intro H. exfalso. eapply Hr; eassumption.
    + intros (_ & H). rewrite Hk in Hi. contradiction.
  - destruct (dict_roundtrip fr E V d Hp Hi) as (s & Hs & Hr). exists s. split; [assumption|]. rewrite Hr. rewrite <- Hk. split.
    + intro H. split; [|assumption]. injection H as H. apply (f_equal (map fst)) in H. rewrite !map_map in H. cbn [fst] in H.
      rewrite <- (map_map fst AStr), <- (map_map (fun kv : atom * val => json_key fr (fst kv)) AStr), <- Hk in H.
      assert (map fst (json_object (stringed fr d)) = map fst (stringed fr d)) as <-; [|apply json_object_spec].
      revert H. generalize (map fst (json_object (stringed fr d))) (map fst (stringed fr d)). induction l as [|x l IH]; intros [|y r] H; inversion H; subst; [reflexivity|].
      f_equal. apply IH; assumption.
    + intros (H & _). rewrite json_object_nodup by assumption. unfold stringed. rewrite map_map. reflexivity.
Qed.
(** Keys that become equal: one entry is left, holding the last of their values. *)
Theorem C26_last_value_wins : forall float_repr E V d, (forall k x, In (k, x) d -> plain E x) ->
  ~ In SER_TYPE (map (fun kv => json_key float_repr (fst kv)) d) ->
  exists s r, ser E V false (VDict d) = Ok s /\ deser E V (through_json float_repr s) XNone = Ok (VDict (map (fun kv => (AStr (fst kv), untuple (snd kv))) r)) /\
    NoDup (map fst r) /\
    (forall k, In k (map fst r) <-> In k (map (fun kv => json_key float_repr (fst kv)) d)) /\
    (forall k, assoc k r = last_value k (map (fun kv => (json_key float_repr (fst kv), snd kv)) d)).
Proof.
  intros fr E V d Hp Hn. assert (Hk : map fst (stringed fr d) = map (fun kv => json_key fr (fst kv)) d) by (unfold stringed; rewrite map_map; reflexivity).
  rewrite <- Hk in Hn. destruct (dict_roundtrip fr E V d Hp Hn) as (s & Hs & Hr). exists s, (json_object (stringed fr d)).
  split; [assumption|]. split; [assumption|]. rewrite <- Hk. apply json_object_spec.
Qed.
Example C26_collision : exists s, ser (ex_env false false) false false (VDict [(AInt 5, VAtom (AInt 1)); (AStr ($"5"), VAtom (AInt 2))]) = Ok s /\
  deser (ex_env false false) false (through_json ex_repr s) XNone = Ok (VDict [(AStr ($"5"), VAtom (AInt 2))]).
Proof. eexists. split; [reflexivity|vm_compute; reflexivity]. Qed.
Example C26_reserved : exists s i, ser (ex_env false false) false false (VDict [(AStr SER_TYPE, VAtom (AStr ($"my"))); (AStr ($"a"), VAtom (AInt 2))]) = Ok s /\
  deser (ex_env false false) false (through_json ex_repr s) XNone = Ok (VInvalid i).
Proof. eexists. eexists. split; [reflexivity|vm_compute; reflexivity]. Qed.
Example C26_hypotheses : let d := [(AInt 5, VAtom (AInt 1)); (AStr ($"6"), VAtom (AInt 2))] in
  NoDup (map fst d) /\ (forall k x, In (k, x) d -> plain (ex_env false false) x) /\ NoDup (map (fun kv => json_key ex_repr (fst kv)) d).
Proof.
  repeat split.
  - repeat constructor; cbn; intuition discriminate.
  - intros k x [H|[H|[]]]; inversion H; constructor.
  - repeat constructor; cbn; intuition discriminate.
Qed.
Print Assumptions C26_dict_round_trip_iff.
Print Assumptions C26_last_value_wins.

(** * C27 *)
Theorem C27_isvalid_decides : forall E v, (forall d, v <> VDict d) ->
  exists b, isvalid E v = Ok b /\ (b = false <-> exists i, v = VInvalid i).
Proof.
  intros E v H. destruct v; try (exists true; split; [reflexivity|split; [discriminate|intros (? & ?); discriminate]]).
  - exfalso; eapply H; reflexivity.
  - exists false. split; [reflexivity|]. split; [intros _; eexists; reflexivity|reflexivity].
Qed.
(** On dicts: valid for registered types, invalid for markers, TypeError for anything else. *)
Theorem C27_isvalid_on_dicts : forall E d,
  isvalid E (VDict d) =
    match assoc_a (AStr SER_TYPE) d with
    | Some (VAtom (AStr t)) =>
        if in_dec str_eq_dec t marker_names then Ok false
        else if str_eq_dec t n_instance then Ok true
        else match e_types E t with Some _ => Ok true | None => Exn TypeError end
    | _ => Exn TypeError
    end.
Proof.
  intros E d. cbn [isvalid]. destruct (assoc_a (AStr SER_TYPE) d) as [[[]| | | | | | | ]|]; try reflexivity.
  destruct (in_dec str_eq_dec s marker_names) as [H|H].
  - destruct H as [<-|[<-|[<-|[<-|[]]]]]; reflexivity.
  - destruct (str_eq_dec s n_instance) as [->|N]; [reflexivity|].
    assert (R : ~ In s reserved_names) by (intros [?|?]; [congruence|contradiction]).
    destruct (e_types E s) as [c|] eqn:Et; [rewrite (str2type_user E s c) by assumption|rewrite (str2type_none E s) by assumption]; reflexivity.
Qed.
Example C27_plain_dict : isvalid (ex_env false false) (VDict [(AStr ($"a"), VAtom (AInt 1))]) = Exn TypeError
  /\ isvalid (ex_env false false) (VDict [(AStr SER_TYPE, VAtom (AStr ($"Point")))]) = Ok true
  /\ isvalid (ex_env false false) (VDict [(AStr SER_TYPE, VAtom (AStr n_unser))]) = Ok false
  /\ isvalid (ex_env false false) (VList []) = Ok true.
Proof. repeat split; vm_compute; reflexivity. Qed.
Print Assumptions C27_isvalid_decides.
Print Assumptions C27_isvalid_on_dicts.

(** * C28 *)
(** After any history of registrations, a registered object is stored under the first introduced of the
    names it holds, and loads as the very same object. *)
Theorem C28_instance_identity : forall E h V float_repr i n, held h n i ->
  exists m, held h m i /\ (forall m', held h m' i -> m' <> m -> introduced_before h m m') /\
    ser (with_instances E h) V false (VInst i) = Ok (typed n_instance (PAtom (AStr m))) /\
    deser (with_instances E h) V (through_json float_repr (typed n_instance (PAtom (AStr m)))) XNone = Ok (VInst i).
Proof.
  intros E h V fr i n Hh. destruct (json_object_spec h) as (J1 & J2 & J3).
  assert (Hin : In (n, i) (json_object h)) by (apply assoc_in, held_assoc; assumption).
  destruct (inst_name_some _ _ _ Hin) as (m & Hm). exists m.
  assert (Hmh : held h m i).
  { apply held_assoc. apply assoc_in_nodup; [assumption|]. apply inst_name_in; assumption. }
  split; [assumption|]. split; [|split].
  - intros m' Hm' Nm. destruct (inst_name_first _ _ _ Hm) as (b & a & Hba & Hb).
    assert (In m' (map fst a)) as Ha.
    { apply held_assoc in Hm'. apply assoc_in in Hm'. rewrite Hba in Hm'. apply in_app_or in Hm' as [Hx|[Hx|Hx]].
      - exfalso; eapply Hb; eassumption.
      - inversion Hx; congruence.
      - apply (in_map fst) in Hx; exact Hx. }
    destruct (keys_order h [] (map fst b) m (map fst a)) with (m := m') as [(b' & a' & Hx)|(hb & j & ha & Hx & Hy)].
    + change (fold_left register_instance h []) with (json_object h). rewrite Hba, map_app. reflexivity.
    + constructor.
    + assumption.
    + destruct b'; discriminate.
    + exists hb, j, ha. split; [assumption|]. split; [assumption|congruence].
  - cbn [ser]. change (e_insts (with_instances E h)) with (json_object h). rewrite Hm. reflexivity.
  - rewrite through_json_ready by (apply typed_ready; constructor). rewrite deser_typed. change (str2type (with_instances E h) n_instance) with (Some CInstance). cbv iota beta.
    rewrite deser_obj_eq. unfold de_object, call_de. change (e_insts (with_instances E h)) with (json_object h).
    apply held_assoc in Hmh. rewrite Hmh. reflexivity.
Qed.
(** Old data stored under a name loads as the object that holds the name now. *)
Theorem C28_name_redirects : forall E h V n i, held h n i ->
  deser (with_instances E h) V (typed n_instance (PAtom (AStr n))) XNone = Ok (VInst i).
Proof.
  intros E h V n i H. rewrite deser_typed. change (str2type (with_instances E h) n_instance) with (Some CInstance). cbv iota beta.
  rewrite deser_obj_eq. unfold de_object, call_de. change (e_insts (with_instances E h)) with (json_object h).
  apply held_assoc in H. rewrite H. reflexivity.
Qed.
Example C28_history : let h := [($"a", 1); ($"b", 2); ($"c", 1); ($"a", 2)] in
  held h ($"a") 2 /\ held h ($"b") 2 /\ held h ($"c") 1 /\ ~ held h ($"a") 1 /\
  ser (with_instances (ex_env false false) h) false false (VInst 2) = Ok (typed n_instance (PAtom (AStr ($"a")))).
Proof.
  cbv zeta. rewrite !held_assoc. repeat split; vm_compute; try reflexivity. discriminate.
Qed.
Print Assumptions C28_instance_identity.
Print Assumptions C28_name_redirects.

(** * C29 *)
(** Each member of a registered Enum class loads as itself if its name has no dot. *)
Theorem C29_enum_round_trip : forall E V float_repr c t ms m, registered E c t -> c_kind (e_class E c) = KEnum ms -> In m ms ->
  ~ In "."%char m ->
  exists s, ser E V false (VEnum c m) = Ok s /\ deser E V (through_json float_repr s) XNone = Ok (VEnum c m).
Proof.
  intros E V fr c t ms m Hr Hk Hm Hd. destruct (C20_plain_data_round_trip E V fr (VEnum c m)) as (s & H1 & H2).
  - eapply plain_enum; eassumption.
  - exists s; auto.
Qed.
(** With a dot in its name (functional Enum API) it never does: the part after the last dot is looked
    up, giving another member or a marker. *)
Theorem C29_dotted_member_never_returns : forall E float_repr c t ms a b, registered E c t -> c_kind (e_class E c) = KEnum ms ->
  ~ In "."%char b ->
  exists s, ser E false false (VEnum c (a ++ "."%char :: b)) = Ok s /\
    (In b ms -> deser E false (through_json float_repr s) XNone = Ok (VEnum c b)) /\
    (~ In b ms -> exists i, deser E false (through_json float_repr s) XNone = Ok (VInvalid i)).
Proof.
  intros E fr c t ms a b Hr Hk Hd. pose proof Hr as (R1 & R2 & R3 & R4).
  exists (typed t (PAtom (AStr (c_name (e_class E c) ++ $"." ++ a ++ "."%char :: b)))). split.
  - cbn [ser]. rewrite (obj_type_registered E c t) by assumption. rewrite R2, Hk. reflexivity.
  - rewrite through_json_ready by (apply typed_ready; constructor). rewrite deser_typed, (str2type_user E t c), deser_obj_eq by assumption.
    unfold de_object. rewrite R2, Hk.
    replace (c_name (e_class E c) ++ $"." ++ a ++ "."%char :: b) with ((c_name (e_class E c) ++ $"." ++ a) ++ "."%char :: b) by (rewrite <- !app_assoc; reflexivity).
    rewrite last_name_app by assumption. split; intro H.
    + rewrite (proj2 (member_in b ms)) by assumption. reflexivity.
    + destruct (member b ms) eqn:Em; [apply member_in in Em; contradiction|]. eexists; reflexivity.
Qed.
Example C29_dotted : exists s, ser (ex_env false false) false false (VEnum 8 ($"v1.0")) = Ok s /\
  deser (ex_env false false) false (through_json ex_repr s) XNone = Ok (VEnum 8 ($"0")).
Proof.
  match goal with |- exists s, ?x = _ /\ _ => let v := eval vm_compute in x in match v with Ok ?r => exists r end end.
  split; vm_compute; reflexivity.
Qed.
Example C29_member : registered (ex_env false false) 3 ($"Color") /\ In ($"RED") [$"RED"; $"BLUE"] /\ ~ In "."%char ($"RED").
Proof. split; [registered|]. split; [left; reflexivity|cbn; intuition discriminate]. Qed.
Print Assumptions C29_enum_round_trip.
Print Assumptions C29_dotted_member_never_returns.

(** * C61 *)
(** A dataclass with a serialized field that is not an argument of [__init__] is never loaded: whatever
    the instance holds, its stored form gives a marker. *)
Theorem C61_non_init_field_never_loads : forall E float_repr c t fds fs f s, tame E ->
  registered E c t -> c_kind (e_class E c) = KData fds -> NoDup (map f_name fds) ->
  In f fds -> f_init f = false -> f_noser f = false ->
  ser E false false (VObj c fs) = Ok s ->
  exists i, deser E false (through_json float_repr s) XNone = Ok (VInvalid i).
Proof.
  intros E fr c t fds fs f s T R Hk Hn Hf Hi Hs H. destruct (ser_data E false c t fds fs s R Hk H) as [(d & Hd & ->)|(i & -> & Hm)].
  - rewrite through_json_typed. destruct (rejects_marker E t (through_json fr (PDict d)) T) as (c' & e & Hc & Hx).
    + destruct (through_json_dict fr d) as (d' & Hd' & Hkeys).
      assert (exists x, In (AStr (f_name f), x) d') as (x & Hx).
      { destruct (ser_fields_key fds _ d f Hd Hf Hs) as (q & Hq).
        apply (in_map (fun kv => json_key fr (fst kv))) in Hq. cbn in Hq. apply Hkeys in Hq.
        apply in_map_iff in Hq as ((k & x) & Hq & Hin). cbn in Hq. subst k. exists x; exact Hin. }
      eapply rj_extra with (k := f_name f); [exact R|exact Hk|exact Hd'|exact Hx|].
      intros g Hg Hgi Hgn. assert (g = f) by (eapply (names_inj fds); eassumption). subst. congruence.
    + rewrite deser_typed, Hc, Hx. eexists; reflexivity.
  - apply unser_loads; assumption.
Qed.
Example C61_odd : exists s i, ser (ex_env false false) false false (VObj 4 [($"a", VAtom (AInt 1)); ($"b", VAtom (AInt 1))]) = Ok s /\
  deser (ex_env false false) false (through_json ex_repr s) XNone = Ok (VInvalid i) /\ registered (ex_env false false) 4 ($"Odd").
Proof. eexists. eexists. split; [vm_compute; reflexivity|]. split; [vm_compute; reflexivity|registered]. Qed.
Print Assumptions C61_non_init_field_never_loads.

(** * C62 *)
(** An undecorated dataclass that inherits from a registered dataclass is stored under its parent's name
    and loads as an instance of the parent (or a marker), never of the subclass. *)
Theorem C62_subclass_loads_as_parent : forall E float_repr c sub t fds fds' fs s, tame E ->
  registered E c t -> c_kind (e_class E c) = KData fds ->
  c_type (e_class E sub) = Some t -> c_custom (e_class E sub) = None -> c_kind (e_class E sub) = KData fds' ->
  ser E false false (VObj sub fs) = Ok s ->
  exists v, deser E false (through_json float_repr s) XNone = Ok v /\ ((exists fs', v = VObj c fs') \/ exists i, v = VInvalid i).
Proof.
  intros E fr c sub t fds fds' fs s T (R1 & R2 & R3 & R4) Hk St Sc Sk H.
  destruct (ser_data_gen E false sub t fds' fs s) as [(d & Hd & ->)|(i & -> & Hm)].
  - unfold obj_type. rewrite Sc, St. unfold is_type_str. rewrite (str2type_user E t c) by assumption. reflexivity.
  - assumption.
  - assumption.
  - assumption.
  - rewrite through_json_typed, deser_typed, (str2type_user E t c), deser_obj_eq by assumption.
    unfold de_object. rewrite R2, Hk. destruct (through_json_dict fr d) as (d' & -> & _). cbn [dkids].
    match goal with |- exists v, check false (call_de E _ ?p ?r) = Ok v /\ _ => assert (Ck : calm r); [|destruct r as [w|e] eqn:Er] end.
    + apply calm_bind; [|intros vs _; apply calm_bind; [|intros args _; apply calm_bind; [|intros; apply calm_ok]]].
      * intro e. apply calm_map. intros (k & z) e' Hi. apply in_map_iff in Hi as ((k' & q) & Hi & _). inversion Hi; subst. cbn [fst snd].
        intro H'. assert (deser E false q XNone = Exn e') by (unfold deser; destruct (fst (deser_z E false q) XNone); [discriminate|cbn in H'; congruence]).
        eapply (proj1 (deser_calm E q T)); eassumption.
      * intro e. apply calm_str_keys.
      * intros e He. unfold construct in He. destruct forallb; [eapply build_calm; eassumption|inversion He; reflexivity].
    + exists w. assert (exists fs', w = VObj c fs') as (fs' & ->).
      { repeat match type of Er with bind ?m _ = _ => destruct m; [cbn [bind] in Er|discriminate] end. inversion Er. eexists; reflexivity. }
      split; [reflexivity|left; eexists; reflexivity].
    + unfold call_de. rewrite (Ck e eq_refl). cbn. eexists. split; [reflexivity|right; eexists; reflexivity].
  - destruct (unser_loads E fr i T Hm) as (j & Hj). eexists. split; [exact Hj|right; eexists; reflexivity].
Qed.
Example C62_sub : exists s, ser (ex_env false false) false false (VObj 6 [($"x", VAtom (AInt 1)); ($"y", VAtom (AInt 2))]) = Ok s /\
  deser (ex_env false false) false (through_json ex_repr s) XNone = Ok (VObj 0 [($"x", VAtom (AInt 1)); ($"y", VAtom (AInt 2))]).
Proof.
  match goal with |- exists s, ?x = _ /\ _ => let v := eval vm_compute in x in match v with Ok ?r => exists r end end.
  split; vm_compute; reflexivity.
Qed.
Print Assumptions C62_subclass_loads_as_parent.
