(** Models that can be saved again without new files: the vocabulary of saving twice. *)
From Coq Require Import List Ascii String Bool Arith ZArith.
From Verif Require Import Base FsModel PathModel SerialModel StoreModel RoundSpec.
Import ListNotations.

(** No storable stands bare in a plain list or dict. *)
Inductive boxed (E : senv) : obj -> Prop :=
| bx_atom a : boxed E (OAtom a)
| bx_list l : (forall x, In x l -> boxed E x /\ is_storable E x = false) -> boxed E (OList l)
| bx_dict d : (forall k x, In (k, x) d -> boxed E x /\ is_storable E x = false) -> boxed E (ODict d)
| bx_leaf c d : boxed E (OLeaf c d)
| bx_model c fs u fds : k_kind (s_class E c) = SModel fds ->
    (forall f v, In f fds -> mf_noser f = false -> assoc (mf_name f) fs = Some v -> boxed E v) -> boxed E (OModel c fs u)
| bx_seq q s u : (forall x, In x s -> boxed E x) -> boxed E (OSeq q s u)
| bx_map p s u : (forall k x, In (k, x) s -> boxed E x) -> boxed E (OMap p s u)
| bx_waiting ty t b cx : boxed E (OUnloaded ty t b cx)
| bx_rec content t pre we re : boxed E content -> boxed E (ORec content t pre we re).

(** What a [__write__] leaves in the file depends on the data only. *)
Definition writes_determined (E E2 : senv) : Prop := forall c k k' d, s_write E2 c k d = s_write E c k' d.

(** A later run of the same program: the same classes and methods, no file operation fails, retouching without questions. *)
Definition later_run (E E2 : senv) : Prop :=
  same_code E E2 /\ writes_determined E E2 /\ s_float E2 = s_float E /\ s_limit E2 = None /\
  (s_retouch E2 = $"auto" \/ s_retouch E2 = $"quit") /\ s_validate E2 = true.
(** Later runs that load the key (at least [n] deep) and save it right away, one after the other: from one state of the
    file system to another. *)
Inductive visits (E : senv) (n : nat) (p : opts) (k : str) : node -> node -> Prop :=
| visits_none fs : visits E n p k fs fs
| visits_more E2 m1 m2 w o w1 o2 j w2 fs : later_run E E2 -> n <= m1 ->
    load E2 m1 p k None None w = (Ok o, w1) -> save E2 m2 p k o w1 = (Ok (o2, j), w2) ->
    visits E n p k (w_fs w2) fs -> visits E n p k (w_fs w) fs.
