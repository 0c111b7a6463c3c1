(** Model of where the fields of a modelclass instance are kept (modelclasses.py:57-136, 139-175): the attributes
    [_<field>], the table [__record__] with the records, and what is written when the instance is saved. *)
From Coq Require Import Ascii String List Bool Arith.
From Verif Require Import Base.
Import ListNotations.

(** Values: None, other values that are not storable, storables, records. Contents of records are in a heap, since records
    are shared by the attribute and the table. Simplification: everything is in memory. *)
Inductive value := VNone | VPlain (n : nat) | VStor (n : nat) | VRec (r : nat).
(** Kinds of fields: with a [RecordWrap], with a [SerializeWrap], without descriptor. *)
Inductive kind := KRec | KConv | KPlain.
Definition table := str -> option value.
Definition tset (t : table) (k : str) (v : value) : table := fun x => if str_eq_dec x k then Some v else t x.

(** An instance: its attributes, [__record__], the heap of records. [__unused__] is left out (see FieldModel). *)
Record inst := mkInst { i_attrs : table; i_records : table; i_heap : nat -> value; i_next : nat }.

Section Attr.
(** The class: names and kinds of its fields, and class attributes (defaults of plain fields stay there). Simplifications:
    no conversions; the private name of a field with a descriptor is not itself a field with a descriptor. *)
Variable fields : list (str * kind).
Variable cattr : table.

Fixpoint kind_in (l : list (str * kind)) (x : str) : option kind :=
  match l with [] => None | (y, k) :: r => if str_eq_dec y x then Some k else kind_in r x end.
Definition kind_of (x : str) : option kind := kind_in fields x.
(** [f"_{name}"] (98, 145). *)
Definition private (x : str) : str := "_"%char :: x.
(** [getattr] of a name without a descriptor. *)
Definition lookup (i : inst) (x : str) : option value := match i_attrs i x with Some v => Some v | None => cattr x end.

(** Reading an attribute; RecordWrap.__get__ (100-104), SerializeWrap.__get__ (147-148). *)
Definition get (i : inst) (x : str) : res value :=
  match kind_of x with
  | Some KRec => match lookup i (private x) with
                 | Some (VRec r) => Ok (i_heap i r)
                 | Some v => Ok v
                 | None => Exn AttributeError
                 end
  | Some KConv => match lookup i (private x) with Some v => Ok v | None => Exn AttributeError end
  | _ => match lookup i x with Some v => Ok v | None => Exn AttributeError end
  end.
Definition set_attr (i : inst) (x : str) (v : value) : inst := mkInst (tset (i_attrs i) x v) (i_records i) (i_heap i) (i_next i).
(** Assigning; RecordWrap.__set__ (106-136), SerializeWrap.__set__ (150-153). *)
Definition set (i : inst) (x : str) (v : value) : inst :=
  match kind_of x with
  | Some KRec =>
      match v with
      | VStor _ =>
          match lookup i (private x) with
          | Some (VRec r) => mkInst (i_attrs i) (i_records i) (fun q => if q =? r then v else i_heap i q) (i_next i)
          | _ => let r := i_next i in
                 mkInst (tset (i_attrs i) (private x) (VRec r)) (tset (i_records i) x (VRec r))
                        (fun q => if q =? r then v else i_heap i q) (S r)
          end
      | _ => mkInst (tset (i_attrs i) (private x) v) (tset (i_records i) x v) (i_heap i) (i_next i)
      end
  | Some KConv => set_attr i (private x) v
  | _ => set_attr i x v
  end.

(** _record_key, get_record, set_record (57-83); the empty key, for which this would be the table itself, is left out. *)
Definition record_key (c : ascii) (k : str) : str := $"__record__" ++ c :: k.
Definition get_record (i : inst) (c : ascii) (k : str) (default : option value) : res value :=
  match lookup i (record_key c k), default with
  | Some v, _ => Ok v
  | None, Some d => Ok d
  | None, None => Exn AttributeError
  end.
Definition set_record (i : inst) (c : ascii) (k : str) (v : value) : inst := set_attr i (record_key c k) v.

(** What is handed to [serialize] for a field (507-518), [None] if it is left out. *)
Definition saved (i : inst) (x : str) : res (option value) :=
  do v <- match i_records i x with
          | Some VNone | None => get i x
          | Some v => Ok v
          end;
  Ok (match v with VNone => None | _ => Some v end).

(** Programs. *)
Inductive op := Get (x : str) | Set_ (x : str) (v : value) | GetRecord (c : ascii) (k : str) (d : option value) | SetRecord (c : ascii) (k : str) (v : value).
Definition step (i : inst) (o : op) : option (res value) * inst :=
  match o with
  | Get x => (Some (get i x), i)
  | Set_ x v => (None, set i x v)
  | GetRecord c k d => (Some (get_record i c k d), i)
  | SetRecord c k v => (None, set_record i c k v)
  end.
Fixpoint run (i : inst) (l : list op) : list (option (res value)) * inst :=
  match l with
  | [] => ([], i)
  | o :: l => let (a, i) := step i o in let (r, i) := run i l in (a :: r, i)
  end.
(** A new object, before its constructor assigns the fields. *)
Definition new_inst : inst := mkInst (fun _ => None) (fun _ => None) (fun _ => VNone) 0.
End Attr.
