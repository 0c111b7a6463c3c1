(** Models whose records are explicit: the vocabulary of removal. *)
From Coq Require Import List Ascii String Bool.
From Verif Require Import Base PosixModel FsModel PathModel SerialModel StoreModel RoundSpec.
Import ListNotations.

(** No storable stands bare where loading would put it into a record: as an item of an mlist or mdict, or in a field that
    is a record field.  (Inserting into these containers and assigning to these fields makes the record, so models built
    through the interface of dman are of this form.) *)
Inductive recorded (E : senv) : obj -> Prop :=
| r_atom a : recorded E (OAtom a)
| r_list l : (forall x, In x l -> recorded E x) -> recorded E (OList l)
| r_dict d : (forall k x, In (k, x) d -> recorded E x) -> recorded E (ODict d)
| r_leaf c d : recorded E (OLeaf c d)
| r_model c fs u fds : k_kind (s_class E c) = SModel fds ->
    (forall f v, In f fds -> mf_noser f = false -> assoc (mf_name f) fs = Some v ->
       recorded E v /\ (mf_wrap f <> None -> is_storable E v = false)) ->
    recorded E (OModel c fs u)
| r_seq q s u : (forall x, In x s -> recorded E x /\ is_storable E x = false) -> recorded E (OSeq q s u)
| r_map p s u : (forall k x, In (k, x) s -> recorded E x /\ is_storable E x = false) -> recorded E (OMap p s u)
| r_rec content t pre we re : recorded E content -> recorded E (ORec content t pre we re).
(** What [clean] takes apart: records, modelclass instances, mlists, mdicts, and everything else that is saved as a
    record; builtin values, lists and dicts have no [__remove__] (repository.py:359) - but a list or dict with a bare
    storable among its items is loaded as an mlist or mdict. *)
Definition cleanable (E : senv) (o : obj) : bool :=
  match o with
  | OAtom _ => false
  | OList l => existsb (is_storable E) l
  | ODict d => existsb (is_storable E) (map snd d)
  | _ => true
  end.
