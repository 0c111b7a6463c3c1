(** modelclasses.py:85-158: reading and assigning the fields of a modelclass that is not compact (CompactModel has those).

    Simplifications, beyond those of StoreModel: [RECORD_FIELDS] of an instance holds what the private attributes of its
    record fields hold ([RecordWrap.__set__] always changes both), so that there is one table; the methods [pre]
    of the fields are functions of the value. *)
From Coq Require Import List Ascii String Bool Arith.
From Verif Require Import Base PosixModel FsModel PathModel SerialModel StoreModel ContainerModel.
Import ListNotations.

(** The attributes of an instance and [UNUSED_FIELDS]. *)
Definition modst : Type := list (str * obj) * list obj.

Section Fields.
Variable E : senv.
(** Depth of nested loads (StoreModel). *)
Variable n : nat.
(** The fields of the class; the method [pre] of a field, if it has one (modelclasses.py:86-89, 140-142, 415-444). *)
Variable fds : list mfield.
Variable pre : str -> option (obj -> res obj).

Definition is_record (o : obj) : bool := match o with ORec _ _ _ _ _ => true | _ => false end.
(** The [RecordWrap] of a field: target and preload. *)
Definition wrap_of (name : str) : option (target * bool) :=
  match find (fun f => if str_eq_dec (mf_name f) name then true else false) fds with
  | Some f => mf_wrap f
  | None => None
  end.
Definition pre_set (name : str) (v : obj) : res obj := match pre name with Some f => f v | None => Ok v end.

(** modelclasses.py:104-108 [RecordWrap.__get__], 150-151 [SerializeWrap.__get__]. *)
Definition field_get (st : modst) (name : str) : M (res obj * modst) :=
  let (fs, u) := st in
  match assoc name fs with
  | None => ret (Exn AttributeError, st)
  | Some o =>
      match wrap_of name with
      | Some _ => x <- content_of E n o;; ret (Ok (fst x), (assoc_set name (snd x) fs, u))
      | None => ret (Ok o, st)
      end
  end.
(** modelclasses.py:110-136 [RecordWrap.__set__] of a value that [pre] made. *)
Definition record_set (t : target) (preload : bool) (st : modst) (name : str) (v : obj) : M (res obj * modst) :=
  let (fs, u) := st in
  if is_storable E v then
    match assoc name fs with
    | Some (ORec c t0 p0 we re) =>
        x <- (if s_clean E then content_of E n (ORec c t0 p0 we re) else ret (v, ORec c t0 p0 we re));;
        let (c1, r1) := x : obj * obj in
        let r2 := match r1 with ORec _ t1 p1 we1 re1 => ORec v t1 p1 we1 re1 | _ => r1 end in
        ret (Ok (OAtom ANone), (assoc_set name r2 fs, u ++ (if s_clean E && is_removable c1 then [c1] else [])))
    | _ => ret (Ok (OAtom ANone), (assoc_set name (ORec v t preload None None) fs, u))
    end
  else
    ret (Ok (OAtom ANone),
         (assoc_set name v fs,
          u ++ match assoc name fs with
               | None | Some (OAtom ANone) => []
               | Some old => if s_clean E then [old] else []
               end)).
(** Assigning an attribute: [RecordWrap.__set__], modelclasses.py:153-156 [SerializeWrap.__set__], or neither. *)
Definition field_set (st : modst) (name : str) (v : obj) : M (res obj * modst) :=
  match wrap_of name with
  | Some (t, preload) =>
      match (if is_record v then Ok v else pre_set name v) with
      | Ok v' => record_set t preload st name v'
      | Exn e => ret (Exn e, st)
      end
  | None =>
      match pre_set name v with
      | Ok v' => ret (Ok (OAtom ANone), (assoc_set name v' (fst st), snd st))
      | Exn e => ret (Exn e, st)
      end
  end.

Inductive fop := FGet (name : str) | FSet (name : str) (v : obj).
Definition field_op (st : modst) (o : fop) : M (res obj * modst) :=
  match o with FGet name => field_get st name | FSet name v => field_set st name v end.
Fixpoint field_ops (st : modst) (l : list fop) : M (list (res obj) * modst) :=
  match l with
  | [] => ret ([], st)
  | o :: l => x <- field_op st o;; y <- field_ops (snd x) l;; ret (fst x :: fst y, snd y)
  end.
End Fields.
