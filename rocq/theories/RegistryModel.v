(** Model of the decorators that make classes serializable, storable and modelclasses: what they register and which
    methods they leave on a class. *)
From Coq Require Import List Ascii String Bool Arith.
From Verif Require Import Base FsModel.
Import ListNotations.

(** The attributes of a class that the decorators look at or set: [SER_TYPE], [STO_TYPE], [__serialize__],
    [__deserialize__], [__convert__], [__de_convert__], [__write__], [__read__], [__dataclass_fields__]
    (serializables.py:23-29, storables.py:28-30). *)
Inductive attr := ASer | ASto | ASerialize | ADeserialize | AConvert | ADeconvert | AWrite | ARead | AFields.
Definition attr_eq_dec (a b : attr) : {a = b} + {a <> b}. Proof. decide equality. Defined.
(** Their values: a name, a method written by the user (or a mark that the attribute is there), or one of the methods the
    decorators put in. *)
Inductive value :=
| VName (s : str)
| VUser (n : nat)
| VTemplate (t : nat)          (* serializables.py:273-300: through the template class [t] *)
| VDefaultConvert              (* serializables.py:268-270 *)
| VDataclass | VEnum           (* serializables.py:239-265 *)
| VModel (compact : bool)      (* modelclasses.py:497-600 *)
| VSerializableFile | VDataclassFile. (* storables.py:139-174 *)

(** The classes of a program, by number: the class and its ancestors in the order of attribute lookup ([__mro__]), its
    [__name__], whether it derives from Enum. *)
Record classes := mkClasses { k_mro : nat -> list nat; k_name : nat -> str; k_enum : nat -> bool }.

(** Own attributes of the classes and the two registries (serializables.py:32-33, storables.py:33-34); the registries are
    dicts, newest entry first. *)
Record reg := mkReg { g_own : nat -> attr -> option value; g_ser : list (str * nat); g_sto : list (str * nat) }.

Section Registry.
Variable K : classes.

(** [getattr(cls, a, None)]: the first class of the mro that has it. *)
Fixpoint first_of {A} (f : nat -> option A) (l : list nat) : option A :=
  match l with [] => None | c :: r => match f c with Some v => Some v | None => first_of f r end end.
Definition getattr (g : reg) (c : nat) (a : attr) : option value := first_of (fun d => g_own g d a) (k_mro K c).
Definition hasattr (g : reg) (c : nat) (a : attr) : bool := match getattr g c a with Some _ => true | None => false end.
Definition setattr (g : reg) (c : nat) (a : attr) (v : value) : reg :=
  mkReg (fun d b => if Nat.eq_dec d c then if attr_eq_dec b a then Some v else g_own g d b else g_own g d b) (g_ser g) (g_sto g).
(** [if getattr(cls, a, None) is None: setattr(cls, a, v)]. *)
Definition set_unless (g : reg) (c : nat) (a : attr) (v : value) : reg := if hasattr g c a then g else setattr g c a v.
(** serializables.py:144 and storables.py:66: assignments to a dict. *)
Definition register_ser (g : reg) (s : str) (c : nat) : reg := mkReg (g_own g) ((s, c) :: g_ser g) (g_sto g).
Definition register_sto (g : reg) (s : str) (c : nat) : reg := mkReg (g_own g) (g_ser g) ((s, c) :: g_sto g).
(** serializables.py:320-323: the name, by default that of the class. *)
Definition local_name (c : nat) (nm : option str) : str := match nm with Some s => s | None => k_name K c end.

(** serializables.py:273-283 [_serialize__template]. *)
Definition serialize_template (g : reg) (c t : nat) : reg * res value :=
  if hasattr g t AConvert then (g, Ok (VTemplate t))
  else if hasattr g c AFields then (setattr g t AConvert VDefaultConvert, Ok (VTemplate t))
  else (g, Exn ValueError).

(** serializables.py:357-361: the methods must be there in the end. *)
Definition check_methods (g : reg) (c : nat) (a b : attr) : reg * option exn :=
  (g, if hasattr g c a && hasattr g c b then None else Some ValueError).

(** serializables.py:320-363 [serializable]. What was done before an exception stays done. *)
Definition serializable (g : reg) (c : nat) (nm : option str) (template : option nat) : reg * option exn :=
  let s := local_name c nm in
  let g := register_ser (setattr g c ASer (VName s)) s c in
  match template with
  | Some t =>
      let conv := if hasattr g c AConvert then (g, None)
                  else if negb (hasattr g t AFields) then (g, Some ValueError)
                  else if hasattr g t ADeconvert then (g, None)
                  else (setattr g c AConvert VDefaultConvert, None) in
      match conv with
      | (g, Some e) => (g, Some e)
      | (g, None) =>
          match (if hasattr g c ASerialize then (g, None)
                 else match serialize_template g c t with
                      | (g, Ok v) => (setattr g c ASerialize v, None)
                      | (g, Exn e) => (g, Some e)
                      end) with
          | (g, Some e) => (g, Some e)
          | (g, None) => check_methods (set_unless g c ADeserialize (VTemplate t)) c ASerialize ADeserialize
          end
      end
  | None =>
      let g := if hasattr g c AFields then set_unless (set_unless g c ASerialize VDataclass) c ADeserialize VDataclass
               else if k_enum K c then set_unless (set_unless g c ASerialize VEnum) c ADeserialize VEnum
               else g in
      check_methods g c ASerialize ADeserialize
  end.

(** serializables.py:88-98 [is_serializable] of a class: its name is registered. *)
Definition is_serializable (g : reg) (c : nat) : bool :=
  match getattr g c ASer with Some (VName s) => match assoc s (g_ser g) with Some _ => true | None => false end | _ => false end.

(** storables.py:101-128 [storable]. *)
Definition storable (g : reg) (c : nat) (nm : option str) : reg * option exn :=
  let s := local_name c nm in
  let g := register_sto (setattr g c ASto (VName s)) s c in
  let g := if is_serializable g c then set_unless (set_unless g c AWrite VSerializableFile) c ARead VSerializableFile
           else if hasattr g c AFields then set_unless (set_unless g c AWrite VDataclassFile) c ARead VDataclassFile
           else g in
  check_methods g c AWrite ARead.

(** modelclasses.py:386-474 [_process__modelclass]: the conversion to a dataclass, the methods, and the two decorators. The
    fields are those of FieldModel.v; that [dataclass] may itself raise is not modelled. *)
Definition modelclass (g : reg) (c : nat) (nm : option str) (template : option nat) (compact as_storable : bool) : reg * option exn :=
  let g := setattr g c AFields (VUser 0) in
  let r := match template with
           | Some t => serializable g c nm (Some t)
           | None => serializable (set_unless (set_unless g c ASerialize (VModel compact)) c ADeserialize (VModel compact)) c nm None
           end in
  match r with
  | (g, Some e) => (g, Some e)
  | (g, None) => if as_storable then storable g c nm else (g, None)
  end.

(** One decoration in a program. [DData] is [dataclasses.dataclass]. *)
Inductive deco := DData (c : nat) | DSer (c : nat) (nm : option str) (template : option nat) | DSto (c : nat) (nm : option str)
| DModel (c : nat) (nm : option str) (template : option nat) (compact as_storable : bool).
Definition decorate (g : reg) (d : deco) : reg * option exn :=
  match d with
  | DData c => (setattr g c AFields (VUser 0), None)
  | DSer c nm t => serializable g c nm t
  | DSto c nm => storable g c nm
  | DModel c nm t b s => modelclass g c nm t b s
  end.
(** A program that decorates classes one after the other; exceptions are caught by the program. *)
Definition decorate_all (g : reg) (ds : list deco) : reg := fold_left (fun g d => fst (decorate g d)) ds g.

(** serializables.py:82-85 [ser_str2type] for the name that instances of [c] are written with
    (76-79 [ser_type2str]): the class their data is loaded as. *)
Definition loaded_as (g : reg) (c : nat) : option nat :=
  match getattr g c ASer with Some (VName s) => assoc s (g_ser g) | _ => None end.
(** The same for files: [sto_type2str] and [read] (storables.py:36-41, 207-209) for instances of [c] kept in records. *)
Definition read_as (g : reg) (c : nat) : option nat :=
  match getattr g c ASto with Some (VName s) => assoc s (g_sto g) | _ => None end.
End Registry.
