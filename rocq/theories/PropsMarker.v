(** C25, further: markers in files that name the class they expected. *)
From Coq Require Import Ascii String List Bool Arith ZArith.
From Verif Require Import Base SerialModel SerialSpec SerialProof SerialFaults SerialMore PropsSerial.
Import ListNotations.

(** A file with an Undeserializable that has the data and names the class, as its attributes suggest: it is never read, as
    the class is passed where the context belongs; without the class the data is read. *)
Theorem C25_naming_the_class_never_read : forall E V t i s e v,
  (forall w, deser E V s XNone = Ok w -> w <> VAtom ANone) -> (forall w, deser E V e XNone = Ok w -> w <> VAtom ANone) ->
  deser E V (typed n_undeser (PDict [(key "type", t); (key "info", i); (key "serialized", s); (key "expected", e)])) XNone = Ok v ->
  exists j, v = VInvalid j.
Proof.
  intros E V t i s e v Hs He H. rewrite deser_typed in H. change (str2type E n_undeser) with (Some CUndeser) in H. cbn iota in H.
  destruct (deser_obj E V _ CUndeser) as [w|x] eqn:Eo; [|discriminate].
  rewrite deser_obj_eq in Eo. unfold de_object in Eo.
  assert (N : exists x, w = exc_marker n_undeser (e_trace E x) (PDict [(key "type", t); (key "info", i); (key "serialized", s); (key "expected", e)])).
  { refine (never_ok_marker _ _ _ _ _ _ _ _ Eo); [|reflexivity]. intros y Hy. unfold de_undeser in Hy. rewrite deser_dict in Hy by reflexivity.
    cbn [map_res fst snd bind] in Hy.
    destruct (deser E V t XNone) as [vt|] eqn:Et; cbn [bind] in Hy; [|discriminate].
    destruct (deser E V i XNone) as [vi|] eqn:Ei; cbn [bind] in Hy; [|discriminate].
    destruct (deser E V s XNone) as [vs|] eqn:Es; cbn [bind] in Hy; [|discriminate].
    destruct (deser E V e XNone) as [ve|] eqn:Ee; cbn [bind] in Hy; [|discriminate].
    specialize (Hs _ eq_refl). specialize (He _ eq_refl). cbn in Hy.
    destruct vs as [[]| | | | | | | ]; try congruence; destruct ve as [[]| | | | | | | ]; try congruence; discriminate. }
  destruct N as (x & ->). unfold check, exc_marker in H. cbn [bind] in H. destruct V; [discriminate|]. inversion H. eexists; reflexivity.
Qed.

(** Plain data: what is read again as it is. *)
Inductive plain_data : pser -> val -> Prop :=
| PDAtom a : plain_data (PAtom a) (VAtom a)
| PDList l vs : Forall2 plain_data l vs -> plain_data (PList l) (VList vs).
Lemma plain_again : forall E V s v, plain_data s v -> deser E V s XNone = Ok v /\ redeser V v = Ok v.
Proof.
  intros E V. fix IH 3. intros s v H. destruct H as [a|l vs H].
  - split; [apply deser_atom | reflexivity].
  - assert (K : map_res (fun q => deser E V q XNone) l = Ok vs /\ map_res (redeser V) vs = Ok vs).
    { induction H as [|x y l vs Hx Hl IHl]; [split; reflexivity|]. destruct IHl as [K1 K2]. destruct (IH _ _ Hx) as [A B].
      split; cbn [map_res]; [rewrite A, K1 | rewrite B, K2]; reflexivity. }
    destruct K as [K1 K2]. split.
    + rewrite deser_list, K1. reflexivity.
    + cbn [redeser]. rewrite K2. reflexivity.
Qed.
Theorem C25_without_the_class_read : forall E V t i s v, plain_data s v -> v <> VAtom ANone ->
  deser E V (typed n_undeser (PDict [(key "type", PAtom t); (key "info", PAtom i); (key "serialized", s)])) XNone = Ok v.
Proof.
  intros E V t i s v H Hv. destruct (plain_again E V s v H) as [A B]. rewrite deser_typed.
  change (str2type E n_undeser) with (Some CUndeser). cbn iota. rewrite deser_obj_eq. unfold de_object, de_undeser.
  rewrite deser_dict by reflexivity. cbn [map_res fst snd bind]. rewrite A.
  destruct (plain_again E V (PAtom t) _ (PDAtom t)) as [-> _]. destruct (plain_again E V (PAtom i) _ (PDAtom i)) as [-> _].
  cbn. destruct H as [a|l vs H].
  - destruct a; try congruence; reflexivity.
  - rewrite B. reflexivity.
Qed.
Example C25_named_ex : exists j,
  deser (ex_env false true) false (typed n_undeser (PDict [(key "type", PAtom (AStr ($"late"))); (key "info", PAtom (AStr []));
    (key "serialized", PList [PAtom (AInt 1)]); (key "expected", PAtom (AStr ($"late")))])) XNone = Ok (VInvalid j)
  /\ deser (ex_env false true) false (typed n_undeser (PDict [(key "type", PAtom (AStr ($"late"))); (key "info", PAtom (AStr []));
    (key "serialized", PList [PAtom (AInt 1)])])) XNone = Ok (VList [VAtom (AInt 1)]).
Proof. eexists. split; vm_compute; reflexivity. Qed.

Print Assumptions C25_naming_the_class_never_read.
Print Assumptions C25_without_the_class_read.
