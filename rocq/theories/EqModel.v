(** Model of [==] between instances of modelclasses: the [__eq__] that [dataclass] makes (modelclasses.py:404-412) reading
    fields through [RecordWrap] and [Record.load]. *)
From Coq Require Import List Bool Arith.
Import ListNotations.

(** Values: identity, class and content. *)
Record value := mkV { v_id : nat; v_cls : nat; v_data : nat }.

(** How a field is declared, with the argument [compare] if given: an annotation alone or [dataclasses.field]; [recordfield]
    (modelclasses.py:232-280); [serializefield] (178-230); [wrapfield] (smartdataclasses.py:59-87). An annotated field of a
    storable type becomes a record when the class is made (modelclasses.py:432-439): only its metadata is replaced, so it
    is still compared as [field] says. *)
Inductive decl := ByAnnotation (compare : option bool) | ByRecordfield (compare : option bool)
| BySerializefield (compare : option bool) | ByWrapfield (compare : option bool).
Definition or_default (c : option bool) (d : bool) : bool := match c with Some b => b | None => d end.
Definition compared (d : decl) : bool :=
  match d with
  | ByAnnotation c => or_default c true
  | ByRecordfield c => or_default c false
  | BySerializefield c => or_default c true
  | ByWrapfield c => or_default c false
  end.

(** What an instance has for a field: the value itself, whether or not it is in a record, or a record whose file has not
    been read. *)
Inductive slot := Loaded (v : value) | Unloaded (file : nat).
Record instance := mkInst { i_cls : nat; i_slots : list slot }.

(** The program: the fields of the modelclasses, the classes of values that compare by content (all others compare by
    identity), what is in the files: class and content, [None] if the file cannot be read; the failure objects
    ([NoFile], [UnReadable]) have a class and a content per file as well. *)
Record program := mkProg {
  p_fields : nat -> list decl;
  p_by_content : nat -> bool;
  p_files : nat -> option (nat * nat);
  p_failure : nat -> nat * nat }.

(** The state: instances, the next unused identity, the files read so far. Simplifications: instances have records of
    their own; instances of other classes, [order=True] and [__eq__] of the user are left out. *)
Record state := mkState { s_heap : nat -> instance; s_next : nat; s_read : list nat }.

Section Eq.
Variable P : program.

(** [a is b or a == b], as tuples compare their items. *)
Definition item_eq (a b : value) : bool :=
  (v_id a =? v_id b) || (p_by_content P (v_cls a) && (v_cls a =? v_cls b) && (v_data a =? v_data b)).

(** RecordWrap.__get__ (modelclasses.py:100-104), Record.load (record.py:497-511): what is read is kept, a failure is not. *)
Definition get (next : nat) (s : slot) : value * slot * nat * list nat :=
  match s with
  | Loaded v => (v, s, next, [])
  | Unloaded f =>
      match p_files P f with
      | Some (c, d) => let v := mkV next c d in (v, Loaded v, S next, [f])
      | None => (mkV next (fst (p_failure P f)) (snd (p_failure P f)), s, S next, [f])
      end
  end.

(** The tuple of the compared fields. *)
Fixpoint gather (next : nat) (ds : list decl) (l : list slot) : list value * list slot * nat * list nat :=
  match ds, l with
  | d :: ds, s :: l =>
      if compared d then
        let '(v, s, next, r) := get next s in
        let '(vs, l, next, r2) := gather next ds l in
        (v :: vs, s :: l, next, r ++ r2)
      else let '(vs, l, next, r) := gather next ds l in (vs, s :: l, next, r)
  | _, _ => ([], l, next, [])
  end.
Definition tuple_of (st : state) (x : nat) : list value * state :=
  let i := s_heap st x in
  let '(vs, l, n, r) := gather (s_next st) (p_fields P (i_cls i)) (i_slots i) in
  (vs, mkState (fun y => if y =? x then mkInst (i_cls i) l else s_heap st y) n (s_read st ++ r)).

Fixpoint list_eq (a b : list value) : bool :=
  match a, b with
  | [], [] => true
  | x :: a, y :: b => item_eq x y && list_eq a b
  | _, _ => false
  end.

(** [x == y]. For different classes both [__eq__] return NotImplemented and identity decides. *)
Definition eq (st : state) (x y : nat) : bool * state :=
  if i_cls (s_heap st x) =? i_cls (s_heap st y) then
    let '(a, st) := tuple_of st x in
    let '(b, st) := tuple_of st y in
    (list_eq a b, st)
  else (x =? y, st).
End Eq.
