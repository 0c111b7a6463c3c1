(** modelclasses.py:85-178, 451-463, 559-613: record fields of compact modelclasses. The table of records
    ([__record__]) is looked up on the instance and then on the class, and objects have identities; so this model has a
    heap, unlike StoreModel.

    Simplifications: one class, without presets, bases and defaults of fields; a record is its content (targets and files
    are in StoreModel); contents are texts; what another type's [__deserialize__] makes of the text of a record is a
    parameter. *)
From Coq Require Import List Ascii String Bool Arith.
From Verif Require Import Base PosixModel FsModel StoreModel.
Import ListNotations.

(** A value of a field: None, other data, a storable object, or a [Record] (by identity). *)
Inductive val := VNone | VData (d : str) | VSto (c : str) | VRec (r : nat).
Record fld := mkFld { f_name : str; f_rec : bool }.
(** [_name] attributes (modelclasses.py:101) and plain attributes; [__record__] of the instance, if it has its own;
    [__unused__]. *)
Record inst := mkInst { i_attrs : list (str * val); i_own : option (list (str * val)); i_unused : list val }.
(** [__record__] of the class, the instances, the contents of the records. *)
Record heap := mkHeap { h_class : option (list (str * val)); h_insts : list inst; h_recs : list str }.
(** A serialized field: other data, or the text of a record. *)
Inductive ser := SData (d : str) | SRec (c : str).

Section Compact.
Variable fields : list fld.
(** config.auto_clean (modelclasses.py:43-55); whether a content has [__remove__] (record.py:49-51). *)
Variable clean : bool.
Variable removable : str -> bool.
(** [deserialize(value, context, expected=f.type)] of the text of a record (modelclasses.py:610-611). *)
Variable misread : str -> str -> val.

(** modelclasses.py:160-166 [record_fields] of an instance: the table found. *)
Definition table_of (h : heap) (i : inst) : list (str * val) :=
  match i_own i with Some t => t | None => match h_class h with Some t => t | None => [] end end.
(** The same, for changing it: it is created on the instance if there is none. *)
Definition put_table (h : heap) (k : nat) (i : inst) (t : list (str * val)) : heap :=
  match i_own i, h_class h with
  | None, Some _ => mkHeap (Some t) (set_nth k i (h_insts h)) (h_recs h)
  | _, _ => mkHeap (h_class h) (set_nth k (mkInst (i_attrs i) (Some t) (i_unused i)) (h_insts h)) (h_recs h)
  end.
Definition new_inst : inst := mkInst [] None [].
Definition inst_at (h : heap) (k : nat) : inst := nth k (h_insts h) new_inst.

(** modelclasses.py:110-136 [RecordWrap.__set__]. *)
Definition set_record (h : heap) (k : nat) (name : str) (v : val) : heap :=
  let i := inst_at h k in
  match v with
  | VSto c =>
      match assoc name (i_attrs i) with
      | Some (VRec r) =>
          let old := nth r (h_recs h) [] in
          let i' := mkInst (i_attrs i) (i_own i) (i_unused i ++ (if clean && removable old then [VSto old] else [])) in
          mkHeap (h_class h) (set_nth k i' (h_insts h)) (set_nth r c (h_recs h))
      | _ =>
          let r := List.length (h_recs h) in
          let i' := mkInst (assoc_set name (VRec r) (i_attrs i)) (i_own i) (i_unused i) in
          put_table (mkHeap (h_class h) (h_insts h) (h_recs h ++ [c])) k i' (assoc_set name (VRec r) (table_of h i))
      end
  | _ =>
      let t := table_of h i in
      let dropped := match assoc name t with Some VNone | None => [] | Some x => if clean then [x] else [] end in
      let i' := mkInst (assoc_set name v (i_attrs i)) (i_own i) (i_unused i ++ dropped) in
      put_table h k i' (assoc_set name v t)
  end.
Definition set_plain (h : heap) (k : nat) (name : str) (v : val) : heap :=
  let i := inst_at h k in
  mkHeap (h_class h) (set_nth k (mkInst (assoc_set name v (i_attrs i)) (i_own i) (i_unused i)) (h_insts h)) (h_recs h).
Definition set_field (h : heap) (k : nat) (f : fld) (v : val) : heap :=
  if f_rec f then set_record h k (f_name f) v else set_plain h k (f_name f) v.
(** The constructor of the dataclass: all fields in order. *)
Definition construct (h : heap) (vs : str -> val) : heap :=
  let k := List.length (h_insts h) in
  fold_left (fun h f => set_field h k f (vs (f_name f))) fields (mkHeap (h_class h) (h_insts h ++ [new_inst]) (h_recs h)).

Definition text_of (h : heap) (v : val) : option ser :=
  match v with
  | VNone => None
  | VData d => Some (SData d)
  | VSto c => Some (SData c)
  | VRec r => Some (SRec (nth r (h_recs h) []))
  end.
(** modelclasses.py:559-587 [_serialize__modelclass_content_only]: one field. *)
Definition saved (h : heap) (k : nat) (name : str) : option ser :=
  let i := inst_at h k in
  match assoc name (table_of h i) with
  | Some v => text_of h v
  | None => match assoc name (i_attrs i) with Some v => text_of h v | None => None end
  end.
(** What is removed first (564-566). *)
Definition removed (h : heap) (k : nat) : list val := if clean then i_unused (inst_at h k) else [].

(** modelclasses.py:590-611: the loop of [_deserialize__modelclass_content_only] for the table [t] of the class. *)
Definition load_step (t : list (str * val)) (stored : str -> option ser) (acc : list str * list (str * val)) (f : fld)
  : list str * list (str * val) :=
  let (recs, vs) := acc in
  match stored (f_name f) with
  | None => (recs, vs ++ [(f_name f, VNone)])
  | Some (SData d) => (recs, vs ++ [(f_name f, VData d)])
  | Some (SRec c) =>
      match assoc (f_name f) t with
      | Some _ => (recs ++ [c], vs ++ [(f_name f, VRec (List.length recs))])
      | None => (recs, vs ++ [(f_name f, misread (f_name f) c)])
      end
  end.
(** modelclasses.py:590-613 [_deserialize__modelclass_content_only]. *)
Definition load (h : heap) (stored : str -> option ser) : heap :=
  let t := match h_class h with Some t => t | None => [] end in
  let (recs, vs) := fold_left (load_step t stored) fields (h_recs h, []) in
  construct (mkHeap (Some t) (h_insts h) recs) (fun n => match assoc n vs with Some v => v | None => VNone end).

(** What a program does with instances of the class. *)
Inductive act := ANew (vs : str -> val) | ASet (k : nat) (f : fld) (v : val) | ALoad (stored : str -> option ser).
Definition act_run (h : heap) (a : act) : heap :=
  match a with
  | ANew vs => construct h vs
  | ASet k f v => if k <? List.length (h_insts h) then set_field h k f v else h
  | ALoad s => load h s
  end.
Definition acts_run (h : heap) (l : list act) : heap := fold_left act_run l h.
End Compact.
