(** smartdataclasses.py:141-248: [OptionField], [configclass] and [override].

    Simplifications: the checks made when a class is defined are left out; values outside strings, numbers, booleans,
    None, dictionaries and configurations are opaque; the [ignore] list is given by the test [value in ignore]. Every
    configuration object carries the number of the object it is, [None] for an object made during the call in question
    that nothing else refers to. *)
From Coq Require Import List Ascii String Bool NArith ZArith.
From Verif Require Import Base.
Import ListNotations.

Inductive val :=
| VStr (s : str) | VInt (z : Z) | VFloat (n : N) | VBool (b : bool) | VNone | VOther (n : nat)
| VDict (l : list (str * val))
| VCfg (id : option nat) (cls : nat) (fs : list (str * val)).
Inductive ctype := CStr | CInt | CFloat | CBool | CNone | CCfg (cls : nat).

(** [isinstance(value, tp)]; a boolean is an integer. *)
Definition isinst (v : val) (t : ctype) : bool :=
  match v, t with
  | VStr _, CStr | VInt _, CInt | VBool _, CInt | VFloat _, CFloat | VBool _, CBool | VNone, CNone => true
  | VCfg _ c _, CCfg d => Nat.eqb c d
  | _, _ => false
  end.
(** [==] on the values used as options. *)
Definition py_eq (a b : val) : bool :=
  match a, b with
  | VStr s, VStr t => if str_eq_dec s t then true else false
  | VInt x, VInt y => Z.eqb x y
  | VBool x, VBool y => Bool.eqb x y
  | VInt x, VBool y | VBool y, VInt x => Z.eqb x (Z.b2z y)
  | VFloat x, VFloat y => N.eqb x y
  | VNone, VNone => true
  | _, _ => false
  end.

(** A field as written in the class body: a default value, [optionfield(options, default=...)], or an [OptionField]. *)
Inductive decl := DDefault (v : val) | DOptionfield (options : list val) (default : option val) | DDescriptor (options : list val).
Inductive attr := AValue (v : val) | AOption (options : list val).
(** The class attribute after [dataclass(cls)] (dataclasses.py): a field specifier is replaced by its default, or
    removed if it has none. *)
Definition class_attr (d : decl) : option attr :=
  match d with
  | DDefault v => Some (AValue v)
  | DOptionfield _ (Some v) => Some (AValue v)
  | DOptionfield _ None => None
  | DDescriptor o => Some (AOption o)
  end.
(** A field of a configclass. *)
Record cfield := mkField { f_name : str; f_type : ctype; f_options : option (list val) }.
(** smartdataclasses.py:194-226 [configclass]: the options are taken from the class attribute (lines 202-203). *)
Definition configclass (l : list (str * ctype * decl)) : list cfield :=
  map (fun '(name, tp, d) => mkField name tp (match class_attr d with Some (AOption o) => Some o | _ => None end)) l.

(** smartdataclasses.py:160-172 [OptionField.__set__]: the checks. *)
Definition check (f : cfield) (v : val) : res unit :=
  if negb (isinst v (f_type f)) then Exn ValueError
  else match f_options f with
       | Some o => if existsb (py_eq v) o then Ok tt else Exn ValueError
       | None => Ok tt
       end.
(** Replace the value of a field. *)
Fixpoint put (name : str) (v : val) (fs : list (str * val)) : list (str * val) :=
  match fs with
  | [] => []
  | (n, w) :: r => if str_eq_dec n name then (n, v) :: r else (n, w) :: put name v r
  end.
Fixpoint get (name : str) (fs : list (str * val)) : option val :=
  match fs with
  | [] => None
  | (n, v) :: r => if str_eq_dec n name then Some v else get name r
  end.
(** [setattr(obj, f.name, value)] *)
Definition set_field (f : cfield) (v : val) (fs : list (str * val)) : res (list (str * val)) :=
  do _ <- check f v; Ok (put (f_name f) v fs).
(** [cls(v1, v2, ...)]: [__init__] sets all fields in order. *)
Fixpoint init (l : list cfield) (vs : list val) : res (list (str * val)) :=
  match l, vs with
  | [], [] => Ok []
  | f :: l, v :: vs => do _ <- check f v; do r <- init l vs; Ok ((f_name f, v) :: r)
  | _, _ => Exn TypeError
  end.
(** Assignments after that; one that raises leaves the object as it is. *)
Fixpoint assign (l : list cfield) (ops : list (str * val)) (fs : list (str * val)) : list (str * val) :=
  match ops with
  | [] => fs
  | (name, v) :: ops =>
      assign l ops (match find (fun f => if str_eq_dec (f_name f) name then true else false) l with
                    | Some f => match set_field f v fs with Ok fs' => fs' | Exn _ => fs end
                    | None => fs
                    end)
  end.

(** [copy.deepcopy]: the same content in new objects. *)
Fixpoint deepcopy (v : val) : val :=
  match v with
  | VDict l => VDict (map (fun p => (fst p, deepcopy (snd p))) l)
  | VCfg _ c fs => VCfg None c (map (fun p => (fst p, deepcopy (snd p))) fs)
  | _ => v
  end.
(** [dataclasses.asdict] *)
Fixpoint asdict (v : val) : val :=
  match v with
  | VDict l => VDict (map (fun p => (fst p, asdict (snd p))) l)
  | VCfg _ _ fs => VDict (map (fun p => (fst p, asdict (snd p))) fs)
  | _ => v
  end.

Section Override.
(** The fields of a class. *)
Variable classes : nat -> list cfield.
(** [value in ignore] *)
Variable ignored : val -> bool.

Definition is_cfg (t : ctype) : bool := match t with CCfg _ => true | _ => false end.
(** smartdataclasses.py:237-238 and the argument of [right.get]. *)
Definition right_dict (right : val) : res (list (str * val)) :=
  match right with
  | VCfg _ _ _ => match asdict right with VDict l => Ok l | _ => Exn AttributeError end
  | VDict l => Ok l
  | _ => Exn AttributeError
  end.

(** smartdataclasses.py:239-246: the loop over the fields; [fs] is the object's present content, [old] the nested
    configurations with their [override] (line 244 is called on the field's value, which the loop has not changed
    before). *)
Fixpoint override_fields (old : list (str * (val -> res val))) (right : list (str * val)) (l : list cfield) (fs : list (str * val))
  : res unit * list (str * val) :=
  match l with
  | [] => (Ok tt, fs)
  | f :: l =>
      match get (f_name f) right with
      | None => override_fields old right l fs
      | Some value =>
          if ignored value then override_fields old right l fs
          else
            match (if is_cfg (f_type f)
                   then match find (fun p => if str_eq_dec (fst p) (f_name f) then true else false) old with
                        | Some (_, g) => g value
                        | None => Exn AttributeError
                        end
                   else Ok value) with
            | Exn e => (Exn e, fs)
            | Ok v => match set_field f v fs with
                      | Exn e => (Exn e, fs)
                      | Ok fs' => override_fields old right l fs'
                      end
            end
      end
  end.
(** smartdataclasses.py:231-248 [override], not in place. The copy of [left] is made at the end of the recursion, which
    does not matter because it has the same content. *)
Fixpoint override_copy (left right : val) {struct left} : res val :=
  match left with
  | VCfg _ c fs =>
      do r <- right_dict right;
      let (e, fs') := override_fields (map (fun p => (fst p, override_copy (snd p))) fs) r (classes c) (map (fun p => (fst p, deepcopy (snd p))) fs) in
      do _ <- e; Ok (VCfg None c fs')
  | _ => Exn TypeError
  end.
(** The same with [inplace=True]: the result, and [left] afterwards. *)
Definition override_inplace (left right : val) : res val * val :=
  match left with
  | VCfg id c fs =>
      match right_dict right with
      | Exn e => (Exn e, left)
      | Ok r =>
          let (e, fs') := override_fields (map (fun p => (fst p, override_copy (snd p))) fs) r (classes c) fs in
          (do _ <- e; Ok (VCfg id c fs'), VCfg id c fs')
      end
  | _ => (Exn TypeError, left)
  end.
End Override.
