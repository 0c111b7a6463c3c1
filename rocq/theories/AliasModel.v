(** Model of the atomic aliases of [sjson] (numpy scalars, numeric.py:94-99): what of them is written to a JSON file and
    read back. *)
From Coq Require Import Ascii String List Bool Arith ZArith.
From Verif Require Import Base FsModel SerialModel.
Import ListNotations.

(** Values: atoms of the types JSON knows (instances of subclasses of [float] such as [np.float64] are floats to the
    encoder), objects of other types by type and content, lists (and tuples), dicts whose keys may be objects too, and the
    markers that serialization leaves. *)
Inductive key := KAtom (a : atom) | KObj (ty : nat) (n : nat).
Inductive obj := OAtom (a : atom) | OObj (ty : nat) (n : nat) | OList (l : list obj) | ODict (d : list (key * obj)) | OMark (ty : nat).

(** The classes: proper ancestors of a type, its [__qualname__], and the serialized marker for an object of that type.
    Simplification: the types are not otherwise registered as serializable. *)
Record world := mkWorld { w_bases : nat -> list nat; w_qual : nat -> str; w_mark : nat -> pser }.

(** register_atomic_alias (sjson.py:52-54): [atomic_types] and [__translate_atomic] after a history of calls. *)
Definition conv := nat -> res atom.
Record aliases := mkAliases { a_types : list nat; a_convert : list (nat * conv) }.
Definition no_aliases : aliases := mkAliases [] [].
Definition register_alias (A : aliases) (c : nat * conv) : aliases :=
  mkAliases (a_types A ++ [fst c]) ((fst c, snd c) :: a_convert A).
Definition registered_aliases (h : list (nat * conv)) : aliases := fold_left register_alias h no_aliases.

Section Alias.
Variable W : world.
Variable A : aliases.

(** atomic_type (sjson.py:48-49): [isinstance], so types derived from an alias count. *)
Definition atomic_ty (ty : nat) : bool := existsb (fun t => if in_dec Nat.eq_dec t (a_types A) then true else false) (ty :: w_bases W ty).

(** serialize, serialize_list, serialize_dict (serializables.py:611-622, 666-672); keys are serialized as well, and a
    marker as a key is a TypeError since markers serialize to dicts. *)
Definition map_res {X Y} (f : X -> res Y) : list X -> res (list Y) :=
  fix go l := match l with [] => Ok [] | x :: r => do y <- f x; do r <- go r; Ok (y :: r) end.
Definition ser_key (k : key) : res key :=
  match k with KAtom _ => Ok k | KObj ty _ => if atomic_ty ty then Ok k else Exn TypeError end.
Fixpoint ser (o : obj) : res obj :=
  match o with
  | OAtom _ => Ok o
  | OObj ty _ => Ok (if atomic_ty ty then o else OMark ty)
  | OList l => do l <- map_res ser l; Ok (OList l)
  | ODict d => do d <- map_res (fun '(k, v) => do k <- ser_key k; do v <- ser v; Ok (k, v)) d; Ok (ODict d)
  | OMark _ => Ok o
  end.

(** _default (sjson.py:5-10): by the type itself, [type(o)]. *)
Fixpoint assoc_n {X} (n : nat) (l : list (nat * X)) : option X :=
  match l with [] => None | (m, x) :: r => if Nat.eq_dec m n then Some x else assoc_n n r end.
Definition default (ty n : nat) : res atom :=
  match assoc_n ty (a_convert A) with
  | Some f => f n
  | None => Ok (AStr ($"<un-serializable: " ++ w_qual W ty ++ $">"))
  end.
(** [json.dumps(obj, default=_default)] (sjson.py:13-18): [default] is not applied to keys. *)
Fixpoint dumps (o : obj) : res pser :=
  match o with
  | OAtom a => Ok (PAtom a)
  | OObj ty n => do a <- default ty n; Ok (PAtom a)
  | OList l => do l <- map_res dumps l; Ok (PList l)
  | ODict d => do d <- map_res (fun '(k, v) => match k with
                                         | KAtom a => do v <- dumps v; Ok (a, v)
                                         | KObj _ _ => Exn TypeError
                                         end) d; Ok (PDict d)
  | OMark ty => Ok (w_mark W ty)
  end.
(** Serialize and write. *)
Definition save (o : obj) : res pser := do s <- ser o; dumps s.
End Alias.
