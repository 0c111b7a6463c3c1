(** Dataclasses that are storable without methods of their own, and templates: dman/core/storables.py:111-119, 139-148;
    dman/core/serializables.py:268-299, 327-338; dman/utils/sjson.py:5-18.

    Simplifications: [copy.deepcopy] of an object that is no dataclass gives an equal object; values that mix a
    builtin type into a class (named tuples, [class E(str, Enum)]) and [__post_init__] are left out; aliases
    ([register_atomic_alias]) are not modelled. *)
From Coq Require Import List Ascii String Bool Arith ZArith.
From Verif Require Import Base PosixModel FsModel PathModel SerialModel.
Import ListNotations.

(** What Python knows about the classes: the fields of a class that is a dataclass, its [__qualname__], and the fields of
    dman's own markers (which are dataclasses, errors.py:149, 182). *)
Record denv := mkDenv { d_fields : nat -> option (list field); d_qual : nat -> str; d_mark : invalid -> list (atom * val) }.

Section WithClasses.
Variable C : denv.

(** The attributes of the fields, in the order of the fields; [vs] holds the converted attributes. *)
Fixpoint as_fields (fds : list field) (vs : list (str * res val)) : res (list (atom * val)) :=
  match fds with
  | [] => Ok []
  | f :: r =>
      match assoc (f_name f) vs with
      | None => Exn AttributeError
      | Some s => do x <- s; do d <- as_fields r vs; Ok ((AStr (f_name f), x) :: d)
      end
  end.
(** [dataclasses._asdict_inner]: dataclass instances become dicts, at any depth inside lists, tuples and dicts; everything
    else is copied. *)
Fixpoint as_inner (v : val) : res val :=
  match v with
  | VAtom a => Ok (VAtom a)
  | VList l => do l' <- map_res as_inner l; Ok (VList l')
  | VTuple l => do l' <- map_res as_inner l; Ok (VTuple l')
  | VDict d => do d' <- map_res (fun kv => do x <- as_inner (snd kv); Ok (fst kv, x)) d; Ok (VDict d')
  | VObj c fs =>
      match d_fields C c with
      | Some fds => do d <- as_fields fds (map (fun kv => (fst kv, as_inner (snd kv))) fs); Ok (VDict d)
      | None => Ok (VObj c fs)
      end
  | VEnum c m => Ok (VEnum c m)
  | VInst i => Ok (VInst i)
  | VInvalid i => Ok (VDict (d_mark C i))
  end.
(** [dataclasses.asdict]: only for instances of dataclasses. *)
Definition asdict (v : val) : res (list (atom * val)) :=
  match v with
  | VObj c fs => match d_fields C c with
                 | Some fds => as_fields fds (map (fun kv => (fst kv, as_inner (snd kv))) fs)
                 | None => Exn TypeError
                 end
  | VInvalid i => Ok (d_mark C i)
  | _ => Exn TypeError
  end.
(** [cls( **d)]; [None]: not a dataclass. *)
Definition make (c : nat) (d : list (atom * val)) : res val :=
  do args <- map_res (fun kv => do k <- str_key (fst kv); Ok (k, snd kv)) d;
  match d_fields C c with
  | Some fds => do fs <- construct fds args; Ok (VObj c fs)
  | None => Exn TypeError
  end.

(** ** Storable dataclasses *)
Variable float_repr : Z -> str.
(** sjson.py:5-10 [_default]: the text that stands for anything json does not know. *)
Definition stub (name : str) : str := $"<un-serializable: " ++ name ++ $">".
(** sjson.py:17-18 [dump]. *)
Fixpoint dump (v : val) : json :=
  match v with
  | VAtom a => json_atom a
  | VList l => JList (map dump l)
  | VTuple l => JList (map dump l)
  | VDict d => JDict (json_object (map (fun kv => (json_key float_repr (fst kv), dump (snd kv))) d))
  | VObj c _ => JStr (stub (d_qual C c))
  | VEnum c _ => JStr (stub (d_qual C c))
  | VInst _ => JStr (stub ($"object"))
  | VInvalid _ => JStr (stub ($"BaseInvalid"))
  end.
(** [json.load]. *)
Fixpoint undump (j : json) : val :=
  match j with
  | JNull => VAtom ANone
  | JBool b => VAtom (ABool b)
  | JInt z => VAtom (AInt z)
  | JFloat f => VAtom (AFloat f)
  | JStr s => VAtom (AStr s)
  | JList l => VList (map undump l)
  | JDict d => VDict (map (fun kv => (AStr (fst kv), undump (snd kv))) d)
  end.
(** storables.py:139-141 [_write__dataclass]: what is in the file afterwards. *)
Definition write_dataclass (v : val) : res json := do d <- asdict v; Ok (dump (VDict d)).
(** storables.py:144-147 [_read__dataclass]. *)
Definition read_dataclass (c : nat) (j : json) : res val :=
  match undump j with
  | VDict d => make c d
  | _ => Exn TypeError
  end.

(** ** Templates *)
(** serializables.py:268-270 [_default__convert]: [cls( **asdict(base))]. *)
Definition default_convert (c : nat) (base : val) : res val := do d <- asdict base; make c d.
(** serializables.py:283-284: [__serialize__] of a class with the template [T]; [E] knows the classes and methods that the
    content of the template needs. *)
Definition template_ser (E : env) (validate : bool) (T : nat) (v : val) : res (pser + invalid) :=
  do t <- default_convert T v; do p <- ser E validate true t; Ok (inl p).
(** serializables.py:289-297: [__deserialize__] of such a class [c]. *)
Definition template_de (E : env) (validate : bool) (T c : nat) (p : pser) : res val :=
  do t <- deser E validate p (XCls (CUser T)); default_convert c t.
End WithClasses.
