(** Model of [configclass] (smartdataclasses.py:190-228) on classes that inherit from each other, with the parts of the
    standard library it uses ([dataclasses.dataclass], [is_dataclass], [fields]) and [OptionField] (144-170).
    Simplifications: single inheritance; settings are declared by a type and at most a plain hashable default
    (for [optionfield] see ConfigModel.v); nothing is named like the place where a setting is kept (line 151). *)
From Coq Require Import Ascii String List Bool Arith.
From Verif Require Import Base.
Import ListNotations.

Section Derive.
(** Values, types, [isinstance], and line 205: a type that is atomic or a configclass. *)
Variables V T : Type.
Variable isinst : V -> T -> bool.
Variable simple : T -> bool.

(** A class statement: the settings with type and default; [atomic] and [force_defaults] if it is decorated. *)
Record body := mkBody { b_decl : list (str * (T * option V)); b_deco : option (bool * bool) }.
Inductive attr := Plain (v : V) | Opt (t : T).
Notation fld := (str * (T * option V))%type.
(** A class: its [__dataclass_fields__], inherited or own, and what looking up an attribute of the class gives. *)
Record klass := mkK { k_fields : option (list fld); k_attrs : str -> option attr }.
Definition base_object : klass := mkK None (fun _ => None).

Fixpoint find_name {A} (n : str) (l : list (str * A)) : option A :=
  match l with
  | [] => None
  | (m, a) :: r => if str_eq_dec m n then Some a else find_name n r
  end.
(** The class statement itself: values in the body come before what is inherited. *)
Definition own (b : body) (n : str) : option V := match find_name n (b_decl b) with Some (_, d) => d | None => None end.
Definition define (b : body) (k : klass) : klass :=
  mkK (k_fields k) (fun n => match own b n with Some v => Some (Plain v) | None => k_attrs k n end).

(** [dataclass(cls)] (line 196) for a class without dataclass among its bases: the annotations of its own body, the default of
    each by [getattr(cls, name)]; a setting without default after one with a default is a TypeError. *)
Definition default_of (k : klass) (n : str) : option V := match k_attrs k n with Some (Plain v) => Some v | _ => None end.
Fixpoint in_order (seen : bool) (l : list fld) : bool :=
  match l with
  | [] => true
  | (_, (_, Some _)) :: r => in_order true r
  | (_, (_, None)) :: r => negb seen && in_order seen r
  end.
Definition dataclass (b : body) (k : klass) : res (list fld) :=
  let l := map (fun p => (fst p, (fst (snd p), default_of k (fst p)))) (b_decl b) in
  if in_order false l then Ok l else Exn TypeError.

(** Lines 198-222: the checks of the fields. *)
Fixpoint check_fields (atomic force : bool) (l : list fld) : res unit :=
  match l with
  | [] => Ok tt
  | (_, (t, d)) :: r =>
      if atomic && negb (simple t) then Exn ValueError                                   (* 204-209 *)
      else if force && match d with None => true | Some _ => false end then Exn ValueError  (* 216-222 *)
      else check_fields atomic force r
  end.
(** 194-226: [is_dataclass] (195) is true of a class that inherits its fields; 224 with 127-133 puts a descriptor for every field. *)
Definition configclass (atomic force : bool) (b : body) (k : klass) : res klass :=
  do l <- match k_fields k with Some l => Ok l | None => dataclass b k end;
  do _ <- check_fields atomic force l;
  Ok (mkK (Some l) (fun n => match find_name n l with Some (t, _) => Some (Opt t) | None => k_attrs k n end)).
Definition class_of (k : klass) (b : body) : res klass :=
  match b_deco b with Some (a, f) => configclass a f b (define b k) | None => Ok (define b k) end.
(** Classes, each derived from the one before. *)
Fixpoint hierarchy (k : klass) (l : list body) : res klass :=
  match l with [] => Ok k | b :: r => do k' <- class_of k b; hierarchy k' r end.

(** An instance: what the descriptors keep, and its other attributes. *)
Record inst := mkI { i_kept : str -> option V; i_dict : str -> option V }.
Definition upd (f : str -> option V) (n : str) (v : V) : str -> option V := fun m => if str_eq_dec m n then Some v else f m.
(** Assignment: [OptionField.__set__] (158-170, without options), else the instance's own attribute. *)
Definition set_attr (k : klass) (o : inst) (n : str) (v : V) : res inst :=
  match k_attrs k n with
  | Some (Opt t) => if isinst v t then Ok (mkI (upd (i_kept o) n v) (i_dict o)) else Exn ValueError
  | _ => Ok (mkI (i_kept o) (upd (i_dict o) n v))
  end.
(** Reading: [OptionField.__get__] (153-156) gives the options, here [None], if nothing was set; the result is [Ok None] then. *)
Definition get_attr (k : klass) (o : inst) (n : str) : res (option V) :=
  match k_attrs k n with
  | Some (Opt _) => Ok (i_kept o n)
  | Some (Plain v) => Ok (Some match i_dict o n with Some w => w | None => v end)
  | None => match i_dict o n with Some w => Ok (Some w) | None => Exn AttributeError end
  end.
(** [cls(name=value, ...)]: the [__init__] made by [dataclass], or that of [object]: arguments are bound first, then set in order. *)
Fixpoint bind_args (l : list fld) (args : list (str * V)) : res (list (str * V)) :=
  match l with
  | [] => Ok []
  | (n, (_, d)) :: r =>
      do v <- match find_name n args with Some v => Ok v | None => match d with Some v => Ok v | None => Exn TypeError end end;
      do rest <- bind_args r args; Ok ((n, v) :: rest)
  end.
Fixpoint set_all (k : klass) (o : inst) (l : list (str * V)) : res inst :=
  match l with [] => Ok o | (n, v) :: r => do o' <- set_attr k o n v; set_all k o' r end.
Definition construct (k : klass) (args : list (str * V)) : res inst :=
  let l := match k_fields k with Some l => l | None => [] end in
  if forallb (fun p => match find_name (fst p) l with Some _ => true | None => false end) args
  then do vs <- bind_args l args; set_all k (mkI (fun _ => None) (fun _ => None)) vs
  else Exn TypeError.
End Derive.
