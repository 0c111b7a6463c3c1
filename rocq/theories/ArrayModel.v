(** numeric.py:49-80, 107-112: [sarray], [carray] and [ndarray] as JSON values.

    Simplifications: entries are booleans, integers and floats (int64, float64; [F] is the set of floats and [flt] the
    conversion from integers, both arbitrary); a JSON text is represented by the value it encodes, so the encoding of a
    single number is assumed faithful; arrays are in row order. *)
From Coq Require Import List Bool ZArith Arith.
From Verif Require Import Base.
Import ListNotations.

Section Arrays.
Variable F : Type.
Variable flt : Z -> F.

Inductive dtype := DBool | DInt | DFloat.
Inductive num := NB (b : bool) | NI (z : Z) | NF (f : F).
(** The class of an array: [sarray], [carray] or plain [numpy.ndarray]. *)
Inductive acls := Sarray | Carray | Ndarray.
Record arr := mkArr { a_cls : acls; a_dtype : dtype; a_shape : list nat; a_flat : list num }.

Definition prod (l : list nat) : nat := fold_right Nat.mul 1 l.
Definition kind (x : num) : dtype := match x with NB _ => DBool | NI _ => DInt | NF _ => DFloat end.
Definition z_of (x : num) : Z := match x with NB b => Z.b2z b | NI z => z | NF _ => 0 end.
(** [float(x)] *)
Definition to_float (x : num) : F := match x with NF f => f | _ => flt (z_of x) end.
Definition join (a b : dtype) : dtype :=
  match a, b with DFloat, _ | _, DFloat => DFloat | DInt, _ | _, DInt => DInt | DBool, DBool => DBool end.
(** The entry as stored in an array of the type. *)
Definition cast (d : dtype) (x : num) : num :=
  match d with DFloat => NF (to_float x) | DInt => NI (z_of x) | DBool => x end.

(** What [json.dumps] of a number, a flat list and a shape encode; a list of those. *)
Inductive aser := TNum (x : num) | TList (l : list num) | TShape (l : list nat) | TRows (l : list aser).

(** numpy: the rows of an array ([for a in self]). *)
Fixpoint rows (n m : nat) (flat : list num) : list (list num) :=
  match n with 0 => [] | S n => firstn m flat :: rows n m (skipn m flat) end.
(** numeric.py:51-58 [sarray.__serialize__]. *)
Fixpoint ser_arr (shape : list nat) (flat : list num) : aser :=
  match shape with
  | [] => TNum (NF (match flat with x :: _ => to_float x | [] => flt 0 end))
  | n :: rest =>
      if Nat.eqb (prod (n :: rest)) 0 then TShape shape
      else match rest with [] => TList flat | _ => TRows (map (ser_arr rest) (rows n (prod rest) flat)) end
  end.

(** numpy: [asarray] of a list of numbers; an empty list gives floats. *)
Definition as_flat (l : list num) : arr :=
  let d := match l with [] => DFloat | x :: r => fold_left join (map kind r) (kind x) end in
  mkArr Ndarray d [List.length l] (map (cast d) l).
(** numpy: [asarray] of a list of arrays, which must have one shape. *)
Definition as_rows (l : list arr) : res arr :=
  match l with
  | [] => Ok (mkArr Ndarray DFloat [0] [])
  | x :: r =>
      if forallb (fun y => if list_eq_dec Nat.eq_dec (a_shape y) (a_shape x) then true else false) r
      then let d := fold_left join (map a_dtype r) (a_dtype x) in
           Ok (mkArr Ndarray d (List.length l :: a_shape x) (map (cast d) (concat (map a_flat l))))
      else Exn ValueError
  end.
(** numpy: [zeros]. *)
Definition zeros (shape : list nat) : arr := mkArr Ndarray DFloat shape (repeat (NF (flt 0)) (prod shape)).
Definition view (c : acls) (a : arr) : arr := mkArr c (a_dtype a) (a_shape a) (a_flat a).

Fixpoint sequence (l : list (res arr)) : res (list arr) :=
  match l with
  | [] => Ok []
  | r :: l => do a <- r; do rest <- sequence l; Ok (a :: rest)
  end.
(** numeric.py:60-68 [sarray.__deserialize__]: an empty array is not turned into a view of the class. *)
Fixpoint de_arr (c : acls) (s : aser) : res arr :=
  match s with
  | TNum x => Ok (view c (mkArr Ndarray (kind x) [] [x]))
  | TList l => Ok (view c (as_flat l))
  | TShape sh => Ok (zeros sh)
  | TRows l => do rs <- sequence (map (de_arr Sarray) l); do a <- as_rows rs; Ok (view c a)
  end.

(** What a user saves and loads: numeric.py:49-68 (sarray), 71-80 (carray), 107-112 (ndarray). *)
Definition array_serialize (a : arr) : aser := ser_arr (a_shape a) (a_flat a).
Definition array_deserialize (c : acls) (s : aser) : res arr :=
  match c with
  | Sarray => de_arr Sarray s
  | Carray => do a <- de_arr Sarray s; Ok (view Carray a)
  | Ndarray => do a <- de_arr Sarray s; Ok (view Ndarray a)
  end.
End Arrays.
Arguments NB {F}. Arguments NI {F}. Arguments NF {F}.
Arguments mkArr {F}. Arguments a_cls {F}. Arguments a_dtype {F}. Arguments a_shape {F}. Arguments a_flat {F}.
Arguments kind {F}. Arguments view {F}.
