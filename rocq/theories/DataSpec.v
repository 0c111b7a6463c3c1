(** Vocabulary for storable dataclasses and templates. *)
From Coq Require Import List Ascii String Bool Arith ZArith.
From Verif Require Import Base FsModel SerialModel DataModel.
Import ListNotations.

(** Data that JSON text can express as it is: atoms, lists, dicts with distinct strings as keys. *)
Inductive json_data : val -> Prop :=
| jd_atom a : json_data (VAtom a)
| jd_list l : (forall x, In x l -> json_data x) -> json_data (VList l)
| jd_dict d : (forall k x, In (k, x) d -> exists s, k = AStr s) -> NoDup (map fst d) -> (forall k x, In (k, x) d -> json_data x) -> json_data (VDict d).

(** Attributes [fs] as [__init__] leaves them: one per field, in order; all fields are arguments of [__init__]. *)
Definition made_of (fds : list field) (fs : list (str * val)) : Prop :=
  map fst fs = map f_name fds /\ NoDup (map f_name fds) /\ Forall (fun f => f_init f = true) fds.
(** Dataclass instances in a value have an attribute for each field. *)
Inductive whole (C : denv) : val -> Prop :=
| wh_atom a : whole C (VAtom a)
| wh_list l : (forall x, In x l -> whole C x) -> whole C (VList l)
| wh_tuple l : (forall x, In x l -> whole C x) -> whole C (VTuple l)
| wh_dict d : (forall k x, In (k, x) d -> whole C x) -> whole C (VDict d)
| wh_data c fds fs : d_fields C c = Some fds -> (forall f, In f fds -> In (f_name f) (map fst fs)) -> (forall k x, In (k, x) fs -> whole C x) -> whole C (VObj c fs)
| wh_obj c fs : d_fields C c = None -> whole C (VObj c fs)
| wh_enum c m : whole C (VEnum c m)
| wh_inst i : whole C (VInst i)
| wh_marker i : whole C (VInvalid i).
(** The keys of all dicts are distinct strings, and the attributes of dataclass instances are those of their fields. *)
Inductive text_keys (C : denv) : val -> Prop :=
| tk_atom a : text_keys C (VAtom a)
| tk_list l : (forall x, In x l -> text_keys C x) -> text_keys C (VList l)
| tk_tuple l : (forall x, In x l -> text_keys C x) -> text_keys C (VTuple l)
| tk_dict d : (forall k x, In (k, x) d -> exists s, k = AStr s) -> NoDup (map fst d) -> (forall k x, In (k, x) d -> text_keys C x) -> text_keys C (VDict d)
| tk_data c fds fs : d_fields C c = Some fds -> map fst fs = map f_name fds -> NoDup (map f_name fds) ->
    (forall k x, In (k, x) fs -> text_keys C x) -> text_keys C (VObj c fs)
| tk_obj c fs : d_fields C c = None -> text_keys C (VObj c fs)
| tk_enum c m : text_keys C (VEnum c m)
| tk_inst i : text_keys C (VInst i).

(** What is left of a value in the file of a storable dataclass: dataclass instances are dicts, tuples are lists, and
    other objects are a text with the name of their class. *)
Fixpoint flattened (C : denv) (v : val) : val :=
  match v with
  | VAtom a => VAtom a
  | VList l => VList (map (flattened C) l)
  | VTuple l => VList (map (flattened C) l)
  | VDict d => VDict (map (fun kv => (fst kv, flattened C (snd kv))) d)
  | VObj c fs =>
      match d_fields C c with
      | Some _ => VDict (map (fun kv => (AStr (fst kv), flattened C (snd kv))) fs)
      | None => VAtom (AStr ($"<un-serializable: " ++ d_qual C c ++ $">"))
      end
  | VEnum c _ => VAtom (AStr ($"<un-serializable: " ++ d_qual C c ++ $">"))
  | VInst _ => VAtom (AStr ($"<un-serializable: object>"))
  | VInvalid i => VInvalid i
  end.
(** Dataclass instances are dicts, other objects stay. *)
Fixpoint dicts (C : denv) (v : val) : val :=
  match v with
  | VList l => VList (map (dicts C) l)
  | VTuple l => VTuple (map (dicts C) l)
  | VDict d => VDict (map (fun kv => (fst kv, dicts C (snd kv))) d)
  | VObj c fs =>
      match d_fields C c with
      | Some _ => VDict (map (fun kv => (AStr (fst kv), dicts C (snd kv))) fs)
      | None => v
      end
  | _ => v
  end.

(** An object stands somewhere in the value. *)
Inductive has_object : val -> Prop :=
| ho_obj c fs : has_object (VObj c fs)
| ho_enum c m : has_object (VEnum c m)
| ho_inst i : has_object (VInst i)
| ho_list l x : In x l -> has_object x -> has_object (VList l)
| ho_tuple l x : In x l -> has_object x -> has_object (VTuple l)
| ho_dict d k x : In (k, x) d -> has_object x -> has_object (VDict d).
(** A dataclass instance stands somewhere in the value, outside other objects. *)
Inductive has_data (C : denv) : val -> Prop :=
| hd_here c fds fs : d_fields C c = Some fds -> has_data C (VObj c fs)
| hd_list l x : In x l -> has_data C x -> has_data C (VList l)
| hd_tuple l x : In x l -> has_data C x -> has_data C (VTuple l)
| hd_dict d k x : In (k, x) d -> has_data C x -> has_data C (VDict d).

(** [@serializable(name=t, template=T)] on class [c], without methods of its own; [E0] is what the content of the
    template is serialized with. *)
Definition templated (C : denv) (E E0 : env) (validate : bool) (c : nat) (t : str) (T : nat) : Prop :=
  c_type (e_class E c) = Some t /\ c_custom (e_class E c) = None /\ e_types E t = Some c /\
  ~ In t [n_instance; n_unser; n_exc_unser; n_undeser; n_exc_undeser] /\ c_kind (e_class E c) = KUser /\
  (forall fs, e_ser E c fs = template_ser C E0 validate T (VObj c fs)) /\ (forall p, e_de E c p = template_de C E0 validate T c p).
