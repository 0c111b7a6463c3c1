(** Model of how a modelclass decorator settles, for every field, under which name it is stored and through which
    conversion it is set: the fields of a class and of its parents are shared objects whose metadata the decorators read
    and replace. *)
From Coq Require Import Ascii String List Bool Arith.
From Verif Require Import Base PosixModel.
Import ListNotations.

(** The descriptors put on classes: [RecordWrap] (modelclasses.py:85-103) with the parts of its [Target] ([None] for
    AUTO; a [name] given to [recordfield] is split before, path.py:134-138), [preload] and [pre]; [SerializeWrap]
    (modelclasses.py:141-155) with [pre]; a descriptor of the user. Conversions and descriptors of the user are numbers. *)
Inductive descr :=
| DRec (stem suffix subdir : option str) (preload : bool) (pre : option nat)
| DConv (pre : option nat)
| DCustom (n : nat).

(** [Field.metadata]: None, or a mapping that may have the keys ["__descriptor"], ["__ser_field"] and ["__base"]; other
    keys play no part (smartdataclasses.py:8-9, modelclasses.py:207-213). *)
Inductive meta := MNone | MMap (d : option descr) (ser : bool) (base : option meta).
(** The metadata of a plain field, and metadata passed by the user. *)
Definition no_keys : meta := MMap None false None.
(** [fld.metadata.get("__base", None)] on a mapping. *)
Definition get_base (m : meta) : option meta := match m with MMap _ _ b => b | MNone => None end.

(** wrapfield (smartdataclasses.py:59-87), metadata only. *)
Definition wrapfield (d : descr) (md : option meta) : meta := MMap (Some d) false md.
(** serializefield (modelclasses.py:178-230), metadata only. *)
Definition serializefield (md : option meta) (pre : option nat) : meta :=
  let inner := MMap None true md in
  match pre with None => inner | Some p => wrapfield (DConv (Some p)) (Some inner) end.

(** A field as written in the body of a class: without a descriptor, with [recordfield] or [wrapfield], with
    [serializefield]; the flag of the last two says whether metadata was given. *)
Inductive decl :=
| Plain
| Wrapped (d : descr) (md : bool)
| Serialized (pre : option nat) (md : bool).
Definition user_md (b : bool) : option meta := if b then Some no_keys else None.
Definition meta_of (d : decl) : meta :=
  match d with
  | Plain => no_keys
  | Wrapped d md => wrapfield d (user_md md)
  | Serialized pre md => serializefield (user_md md) pre
  end.

(** The field objects: name, annotated type (a number), metadata. *)
Record fld := mkFld { f_name : str; f_ty : nat; f_meta : meta }.

(** What is known about types when classes are decorated: [is_storable(tp)] and [get_preset(tp)] (storables.py:75-77,
    modelclasses.py:283-305). Simplification: neither changes while the classes of a program are defined. *)
Record types := mkTypes { t_storable : nat -> bool; t_preset : nat -> option nat }.

(** The arguments of the decorator that matter here (modelclasses.py:308-325). *)
Record opts := mkOpts { o_by_field : bool; o_cluster : bool; o_subdir : str }.

(** [os.path.join(subdir, f.name) if cluster else subdir] (modelclasses.py:426, 437). *)
Definition auto_subdir (o : opts) (x : str) : str := if o_cluster o then join2 (o_subdir o) x else o_subdir o.
Definition or_else {A} (a b : option A) : option A := match a with Some _ => a | None => b end.

(** The conversion of one field (modelclasses.py:416-444). [f.metadata.get] on None is the AttributeError. *)
Definition convert (T : types) (o : opts) (f : fld) : res meta :=
  let pre := t_preset T (f_ty f) in
  match f_meta f with
  | MMap (Some d) s b =>
      Ok (MMap (Some (match d with
                      | DRec st su sd pl p =>
                          DRec (or_else st (if o_by_field o then Some (f_name f) else None)) su
                               (or_else sd (Some (auto_subdir o (f_name f)))) pl (or_else p pre)
                      | DConv p => DConv (or_else p pre)
                      | DCustom n => DCustom n
                      end)) s b)
  | MMap None true b => Ok (serializefield b pre)
  | m =>
      if t_storable T (f_ty f) then
        Ok (wrapfield (DRec (if o_by_field o then Some (f_name f) else None) None (Some (auto_subdir o (f_name f))) false pre)
                      (match m with MNone => None | _ => Some m end))
      else match pre with
           | Some p => match m with MNone => Exn AttributeError | _ => Ok (serializefield (get_base m) (Some p)) end
           | None => Ok m
           end
  end.

(** A class: its parent, the names of its fields with the field objects ([__dataclass_fields__]), and the attributes set
    on the class itself under the names of fields: a descriptor or a plain default. *)
Record cls := mkCls { k_parent : option nat; k_fields : list (str * nat); k_attrs : list (str * option descr) }.
Record state := mkState { s_classes : list cls; s_fields : list fld }.

(** A class definition: parent, decorator arguments, the fields of the body: name, type, declaration and whether a
    default (not a factory) is given. Simplifications: one parent at most; the order of fields with and without
    defaults is not checked. *)
Record classdef := mkDef { d_parent : option nat; d_opts : opts; d_own : list (str * (nat * decl * bool)) }.

(** [dict.__setitem__]: an existing key keeps its place. *)
Fixpoint dset {A} (x : str) (v : A) (l : list (str * A)) : list (str * A) :=
  match l with [] => [(x, v)] | (y, w) :: r => if str_eq_dec y x then (x, v) :: r else (y, w) :: dset x v r end.
Fixpoint dget {A} (x : str) (l : list (str * A)) : option A :=
  match l with [] => None | (y, w) :: r => if str_eq_dec y x then Some w else dget x r end.

(** [dataclass(cls)] (modelclasses.py:404-412): the field objects of the parent themselves, then the own ones, newly made. *)
Fixpoint own_fields (base : nat) (l : list (str * (nat * decl * bool))) : list (str * nat) :=
  match l with [] => [] | (x, _) :: r => (x, base) :: own_fields (S base) r end.
Definition new_field (e : str * (nat * decl * bool)) : fld := let '(x, (ty, d, _)) := e in mkFld x ty (meta_of d).
(** Own fields that have a default leave it on the class. *)
Definition own_attrs (l : list (str * (nat * decl * bool))) : list (str * option descr) :=
  flat_map (fun e => let '(x, (_, _, dflt)) := (e : str * (nat * decl * bool)) in if dflt then [(x, None)] else []) l.

Fixpoint upd {A} (l : list A) (i : nat) (a : A) : list A :=
  match l, i with [], _ => [] | _ :: r, 0 => a :: r | b :: r, S i => b :: upd r i a end.
Definition set_meta (h : list fld) (i : nat) (m : meta) : list fld :=
  match nth_error h i with Some f => upd h i (mkFld (f_name f) (f_ty f) m) | None => h end.

(** The loop over the fields that converts them (modelclasses.py:415-444). *)
Fixpoint convert_all (T : types) (o : opts) (fs : list (str * nat)) (h : list fld) : res (list fld) :=
  match fs with
  | [] => Ok h
  | (_, i) :: r =>
      match nth_error h i with
      | None => Exn KeyError
      | Some f => do m <- convert T o f; convert_all T o r (set_meta h i m)
      end
  end.

(** The loop of wrappedclass (smartdataclasses.py:126-133): descriptors go from the metadata to the class. *)
Fixpoint wrap_all (fs : list (str * nat)) (h : list fld) (at_ : list (str * option descr)) : list fld * list (str * option descr) :=
  match fs with
  | [] => (h, at_)
  | (_, i) :: r =>
      match nth_error h i with
      | Some (mkFld x _ (MMap (Some d) _ b)) =>
          wrap_all r (set_meta h i (match b with Some m => m | None => MNone end)) (dset x (Some d) at_)
      | _ => wrap_all r h at_
      end
  end.

(** The definition of one modelclass (modelclasses.py:386-447); a parent that is not there is a NameError, for which
    KeyError stands. *)
Definition define (T : types) (s : state) (d : classdef) : res state :=
  do inherited <- match d_parent d with
                  | None => Ok []
                  | Some p => match nth_error (s_classes s) p with Some k => Ok (k_fields k) | None => Exn KeyError end
                  end;
  let h := s_fields s ++ map new_field (d_own d) in
  let fs := fold_left (fun l e => dset (fst e) (snd e) l) (own_fields (length (s_fields s)) (d_own d)) inherited in
  do h1 <- convert_all T (d_opts d) fs h;
  let '(h2, at_) := wrap_all fs h1 (own_attrs (d_own d)) in
  Ok (mkState (s_classes s ++ [mkCls (d_parent d) fs at_]) h2).

(** A program that defines modelclasses one after the other. *)
Fixpoint run (T : types) (s : state) (l : list classdef) : res state :=
  match l with [] => Ok s | d :: r => do s1 <- define T s d; run T s1 r end.
Definition start : state := mkState [] [].

(** The descriptor through which instances of class [c] get and set the attribute [x]: the first class from [c] upwards
    that has the attribute decides; [None] if there is none or it is a plain default. Parents come before children, so
    [c + 1] steps reach the top. *)
Fixpoint attr_up (n : nat) (s : state) (c : nat) (x : str) : option descr :=
  match n with
  | 0 => None
  | S n =>
      match nth_error (s_classes s) c with
      | None => None
      | Some k => match dget x (k_attrs k) with
                  | Some a => a
                  | None => match k_parent k with Some p => attr_up n s p x | None => None end
                  end
      end
  end.
Definition through (s : state) (c : nat) (x : str) : option descr := attr_up (S c) s c x.
