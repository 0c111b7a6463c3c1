(** Model of typed arrays (numeric.py:11-31): the classes [sarray[int]], [barray[float]], … and fields of modelclasses that
    are annotated with them (numeric.py:83-91, modelclasses.py:139-153, 282-301, 412-445). *)
From Coq Require Import List Bool ZArith Arith.
From Verif Require Import Base ArrayModel.
Import ListNotations.

(** The array classes of numeric.py and [numpy.ndarray]. *)
Inductive root := RS | RC | RB | RN.

(** ** Classes: [_typed_array.__getitem__] *)
(** Class objects are numbers; the first three are [sarray], [carray] and [barray]. The state is the cache, from a class and
    an entry type to a class, the presets that were registered, and the number of classes. Simplification: the entry types
    are bool, int and float; anything else is only another key. *)
Record classes := mkClasses { k_cache : list ((nat * dtype) * nat); k_presets : list (nat * (nat * dtype)); k_next : nat }.
Definition dtype_eqb (a b : dtype) : bool :=
  match a, b with DBool, DBool | DInt, DInt | DFloat, DFloat => true | _, _ => false end.
Fixpoint cached (l : list ((nat * dtype) * nat)) (c : nat) (d : dtype) : option nat :=
  match l with
  | [] => None
  | ((c', d'), r) :: l => if (c' =? c) && dtype_eqb d' d then Some r else cached l c d
  end.
(** 14-31; the preset of the new class: view as that class, then [astype]. *)
Definition getitem (k : classes) (c : nat) (d : dtype) : nat * classes :=
  match cached (k_cache k) c d with
  | Some r => (r, k)
  | None => let r := k_next k in (r, mkClasses (((c, d), r) :: k_cache k) ((r, (r, d)) :: k_presets k) (S r))
  end.
Definition root_class (r : root) : nat := match r with RS => 0 | RC => 1 | RB | RN => 2 end.
(** An expression such as [sarray[int][float]], evaluated from the left; a program of such expressions. *)
Fixpoint subscripts (k : classes) (c : nat) (l : list dtype) : nat * classes :=
  match l with [] => (c, k) | d :: l => let (c, k) := getitem k c d in subscripts k c l end.
Definition new_classes : classes := mkClasses [] [] 3.
Fixpoint evaluate (k : classes) (p : list (root * list dtype)) : list nat * classes :=
  match p with
  | [] => ([], k)
  | (r, l) :: p => let (c, k) := subscripts k (root_class r) l in let (cs, k) := evaluate k p in (c :: cs, k)
  end.

(** ** Fields *)
Section Fields.
Variable F : Type.
Variable flt : Z -> F.
(** numpy: [astype(int)] and [astype(bool)] of a float. *)
Variable trunc : F -> Z.
Variable nonzero : F -> bool.

(** An array: its class, as an expression, entry type, shape, entries in row order. *)
Record tarr := mkT { t_root : root; t_subs : list dtype; t_dtype : dtype; t_shape : list nat; t_flat : list (num F) }.
Inductive value := VArr (a : tarr) | VOther (n : nat).

Definition entry (d : dtype) (x : num F) : num F :=
  match d, x with
  | DBool, NB b => NB b
  | DBool, NI z => NB (negb (z =? 0)%Z)
  | DBool, NF f => NB (nonzero f)
  | DInt, NF f => NI (trunc f)
  | DInt, x => NI (z_of F x)
  | DFloat, x => NF (to_float F flt x)
  end.
(** numpy: [view] and [astype], which keeps the class. *)
Definition tview (r : root) (s : list dtype) (a : tarr) : tarr := mkT r s (t_dtype a) (t_shape a) (t_flat a).
Definition astype (d : dtype) (a : tarr) : tarr := mkT (t_root a) (t_subs a) d (t_shape a) (map (entry d) (t_flat a)).
(** The preset of an annotation (22-27 for typed classes, 83-91 for the others): [astype] with the last subscript. *)
Definition preset (r : root) (s : list dtype) (v : value) : value :=
  match v with
  | VArr a => VArr (match rev s with [] => tview r s a | d :: _ => astype d (tview r s a) end)
  | VOther n => VOther n
  end.

(** What is kept in files. Classes with subscripts have the name of their root, which they inherit: [_num__sarray] and so
    on. [barray] has a file of its own (34-46), in which numpy keeps type, shape and entries. *)
Inductive saved := Text (r : root) (s : aser F) | File (d : dtype) (shape : list nat) (flat : list (num F)).
Definition save (a : tarr) : saved :=
  match t_root a with
  | RB => File (t_dtype a) (t_shape a) (t_flat a)
  | r => Text r (ser_arr F flt (t_shape a) (t_flat a))
  end.
Definition acls_of (r : root) : acls := match r with RS => Sarray | RC => Carray | RB | RN => Ndarray end.
Definition of_arr (a : arr F) : tarr :=
  mkT (match a_cls a with Sarray => RS | Carray => RC | Ndarray => RN end) [] (a_dtype a) (a_shape a) (a_flat a).
(** Reading: the class is found by the name in the file (49-80, 107-112); a file by [barray.__read__] (42-46). *)
Definition load (s : saved) : res tarr :=
  match s with
  | Text r s => do a <- array_deserialize F flt (acls_of r) s; Ok (of_arr a)
  | File d sh fl => Ok (mkT RB [] d sh fl)
  end.
(** Loading an instance: its constructor assigns what was read to the field (modelclasses.py:535-551), through the preset
    (150-153). For a file what is assigned is a record, which the preset leaves alone; the array is read later and not
    converted (100-104, 106-136). *)
Definition load_field (r : root) (l : list dtype) (s : saved) : res value :=
  match s with
  | Text _ _ => do a <- load s; Ok (preset r l (VArr a))
  | File _ _ _ => do a <- load s; Ok (VArr a)
  end.
(** A field that is assigned values one after the other; [None]: nothing yet. *)
Definition assigned (r : root) (l : list dtype) (vs : list value) : option value :=
  fold_left (fun _ v => Some (preset r l v)) vs None.
End Fields.
Arguments mkT {F}. Arguments t_root {F}. Arguments t_subs {F}. Arguments t_dtype {F}. Arguments t_shape {F}. Arguments t_flat {F}.
Arguments VArr {F}. Arguments VOther {F}.
