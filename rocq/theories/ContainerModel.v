(** modelclasses.py:599-787, 803-1024, 1040-1146: the list and dict methods of mlist, mdict and mruns, with their
    storable variants.

    Simplifications, beyond those of StoreModel: indices are integers (no slices); the methods that [MutableSequence] and
    [MutableMapping] derive are modelled where they are used by [sop] and [dop]. An exception leaves the container in the
    state it had at that moment, so the state is returned in every case. *)
From Coq Require Import List Ascii String Bool Arith ZArith Lia.
From Verif Require Import Base PosixModel FsModel PathModel SerialModel StoreModel.
Import ListNotations.

(** Python: the position an index of a list of length [n] means. *)
Definition list_pos (i : Z) (n : nat) : option nat :=
  let j := (if i <? 0 then i + Z.of_nat n else i)%Z in
  if ((0 <=? j) && (j <? Z.of_nat n))%Z then Some (Z.to_nat j) else None.
(** Python: where [list.insert] puts a new item. *)
Definition insert_pos (i : Z) (n : nat) : nat :=
  let j := (if i <? 0 then i + Z.of_nat n else i)%Z in
  Nat.min n (Z.to_nat (Z.max 0 j)).
Definition insert_nth {A} (k : nat) (x : A) (l : list A) : list A := firstn k l ++ x :: skipn k l.
Definition remove_nth {A} (k : nat) (l : list A) : list A := firstn k l ++ skipn (S k) l.

(** A list: options, [store], [unused]. *)
Definition seqst : Type := seqcfg * list obj * list obj.
(** A dict: options, [store], [unused]. *)
Definition mapst : Type := mapcfg * list (str * obj) * list obj.

Section Containers.
Variable E : senv.
(** Depth of nested loads (StoreModel). *)
Variable n : nat.

(** What assigning [value] over the item [old] does (modelclasses.py:758-765, 968-974): the value to store and the items
    to remove later. *)
Definition over (old value : obj) : M (obj * list obj) :=
  match old with
  | ORec _ _ _ _ _ =>
      if is_storable E value then
        x <- (if s_clean E then content_of E n old else ret (value, old));;
        let (c, old') := x : obj * obj in
        ret (match old' with ORec _ t pre we re => ORec value t pre we re | _ => value end,
             if s_clean E && is_removable c then [c] else [])
      else ret (value, if s_clean E then [old] else [])
  | _ => ret (value, if s_clean E && is_removable old then [old] else [])
  end.
(** modelclasses.py:767-768. *)
Definition seq_wrap (q : seqcfg) (v : obj) : seqcfg * obj := if is_storable E v then seq_make_record q v else (q, v).

(** modelclasses.py:747-752 [_blist.__getitem__]: loading changes the record. *)
Definition seq_get (st : seqst) (i : Z) : M (res obj * seqst) :=
  let '(q, s, u) := st in
  match list_pos i (List.length s) with
  | None => ret (Exn IndexError, st)
  | Some k =>
      match nth_error s k with
      | None => ret (Exn IndexError, st)     (* not reachable *)
      | Some o => x <- content_of E n o;; ret (Ok (fst x), (q, set_nth k (snd x) s, u))
      end
  end.
(** modelclasses.py:754-769 [_blist.__setitem__]. *)
Definition seq_set (st : seqst) (i : Z) (v : obj) : M (res obj * seqst) :=
  let '(q, s, u) := st in
  if (i <? Z.of_nat (List.length s))%Z then
    match list_pos i (List.length s) with
    | None => ret (Exn IndexError, st)
    | Some k =>
        match nth_error s k with
        | None => ret (Exn IndexError, st)     (* not reachable *)
        | Some old =>
            x <- over old v;;
            let (v1, more) := x : obj * list obj in
            let (q', v2) := seq_wrap q v1 in
            ret (Ok (OAtom ANone), (q', set_nth k v2 s, u ++ more))
        end
    end
  else let (q', _) := seq_wrap q v in ret (Exn IndexError, (q', s, u)).
(** modelclasses.py:771-774 [_blist.insert]. *)
Definition seq_insert (st : seqst) (i : Z) (v : obj) : M (res obj * seqst) :=
  let '(q, s, u) := st in
  let (q', v') := seq_wrap q v in
  ret (Ok (OAtom ANone), (q', insert_nth (insert_pos i (List.length s)) v' s, u)).
(** modelclasses.py:776-779 [_blist.__delitem__]. *)
Definition seq_del (st : seqst) (i : Z) : M (res obj * seqst) :=
  let '(q, s, u) := st in
  match list_pos i (List.length s) with
  | None => ret (Exn IndexError, st)
  | Some k =>
      ret (Ok (OAtom ANone),
           (q, remove_nth k s,
            u ++ match nth_error s k with Some o => if s_clean E && is_removable o then [o] else [] | None => [] end))
  end.
(** modelclasses.py:740-743 [_blist.clear], 1143-1146 [_bruns.clear]: items are deleted from the end. That [clear] returns
    the list itself is left out, here and for dicts. *)
Fixpoint del_last (k : nat) (st : seqst) : M seqst :=
  match k with
  | 0 => ret st
  | S k => x <- seq_del st (Z.of_nat k);; del_last k (snd x)
  end.
Definition seq_clear (st : seqst) : M (res obj * seqst) :=
  let '(q, s, u) := st in
  x <- del_last (List.length s) st;;
  let '(q, s, u) := x : seqst in
  ret (Ok (OAtom ANone),
       (match q_runs q with None => q | Some (stem, _, ss) => mkSeq (q_sto q) (q_sub q) (q_pre q) (Some (stem, 0%N, ss)) end, s, u)).

(** The methods a user calls; append, extend and pop are those of [MutableSequence]. *)
Inductive sop := LGet (i : Z) | LSet (i : Z) (v : obj) | LInsert (i : Z) (v : obj) | LDel (i : Z) | LAppend (v : obj)
               | LExtend (vs : list obj) | LPop (i : Z) | LLen | LIter | LClear.
Fixpoint seq_extend (st : seqst) (vs : list obj) : M (res obj * seqst) :=
  match vs with
  | [] => ret (Ok (OAtom ANone), st)
  | v :: vs => x <- seq_insert st (Z.of_nat (List.length (snd (fst st)))) v;; seq_extend (snd x) vs
  end.
Definition seq_op (st : seqst) (o : sop) : M (res obj * seqst) :=
  match o with
  | LGet i => seq_get st i
  | LSet i v => seq_set st i v
  | LInsert i v => seq_insert st i v
  | LDel i => seq_del st i
  | LAppend v => seq_insert st (Z.of_nat (List.length (snd (fst st)))) v
  | LExtend vs => seq_extend st vs
  | LPop i =>
      x <- seq_get st i;;
      match x with
      | (Ok v, st1) => y <- seq_del st1 i;; ret (match fst y with Ok _ => Ok v | Exn e => Exn e end, snd y)
      | (Exn e, st1) => ret (Exn e, st1)
      end
  | LLen => ret (Ok (OAtom (AInt (Z.of_nat (List.length (snd (fst st)))))), st)
  | LIter =>                                              (* modelclasses.py:781-782 *)
      let '(q, s, u) := st in
      xs <- mapM (content_of E n) s;; ret (Ok (OList (map fst xs)), (q, map snd xs, u))
  | LClear => seq_clear st
  end.
Fixpoint seq_ops (st : seqst) (l : list sop) : M (list (res obj) * seqst) :=
  match l with
  | [] => ret ([], st)
  | o :: l => x <- seq_op st o;; y <- seq_ops (snd x) l;; ret (fst x :: fst y, snd y)
  end.

(** modelclasses.py:701-738 [_blist.record], 1100-1141 [_bruns.record]: [Target()] merged into the item's target. *)
Definition edit_target (r : obj) (stem suffix name : part) (subdir : str) (pre : bool) : res obj :=
  match r with
  | ORec c t p we re =>
      do d <- match t_subdir t with Some d => Ok d | None => Exn TypeError end;
      do cfg <- Target stem suffix (Some (join2 d subdir)) name;
      Ok (ORec c (merge t [cfg]) (p || pre) we re)
  | _ => Exn AttributeError
  end.
Definition seq_record (st : seqst) (v : obj) (idx : option Z) (stem suffix name : part) (subdir : str) (pre : bool) : M (res obj * seqst) :=
  let i := match idx with None => Z.of_nat (List.length (snd (fst st))) | Some i => i end in
  let j := match idx with None => (-1)%Z | Some i => i end in
  x <- seq_insert st i v;;
  let '(q, s, u) := snd x in
  if is_storable E v then
    match list_pos j (List.length s) with
    | None => ret (Exn IndexError, (q, s, u))
    | Some k => match nth_error s k with
                | None => ret (Exn IndexError, (q, s, u))     (* not reachable *)
                | Some r => match edit_target r stem suffix name subdir pre with
                            | Ok r' => ret (Ok (OAtom ANone), (q, set_nth k r' s, u))
                            | Exn e => ret (Exn e, (q, s, u))
                            end
                end
    end
  else ret (Ok (OAtom ANone), (q, s, u)).

(** modelclasses.py:958-963 [_bdict.__getitem__]; the record found is changed where it is. *)
Definition map_get (st : mapst) (k : str) : M (res obj * mapst) :=
  let '(p, s, u) := st in
  match assoc k s with
  | None => ret (Exn KeyError, st)
  | Some o => x <- content_of E n o;; ret (Ok (fst x), (p, assoc_set k (snd x) s, u))
  end.
(** modelclasses.py:965-978 [_bdict.__setitem__]: the item is taken out first. *)
Definition map_set (st : mapst) (k : str) (v : obj) : M (res obj * mapst) :=
  let '(p, s, u) := st in
  x <- match assoc k s with Some old => over old v | None => ret (v, []) end;;
  let (v1, more) := x : obj * list obj in
  ret (Ok (OAtom ANone), (p, assoc_del k s ++ [(k, if is_storable E v1 then map_make_record p k v1 else v1)], u ++ more)).
(** modelclasses.py:980-1012 [_bdict.record]: the value is set first, then the target of the record at the key is edited. *)
Definition map_record (st : mapst) (k : str) (v : obj) (stem suffix name : part) (subdir : str) (pre : bool) : M (res obj * mapst) :=
  x <- map_set st k v;;
  let '(p, s, u) := snd x in
  if is_storable E v then
    match assoc k s with
    | None => ret (Exn KeyError, (p, s, u))     (* not reachable *)
    | Some r => match edit_target r stem suffix name subdir pre with
                | Ok r' => ret (Ok (OAtom ANone), (p, assoc_set k r' s, u))
                | Exn e => ret (Exn e, (p, s, u))
                end
    end
  else ret (Ok (OAtom ANone), (p, s, u)).
(** modelclasses.py:1014-1017 [_bdict.__delitem__]. *)
Definition map_del (st : mapst) (k : str) : M (res obj * mapst) :=
  let '(p, s, u) := st in
  match assoc k s with
  | None => ret (Exn KeyError, st)
  | Some o => ret (Ok (OAtom ANone), (p, assoc_del k s, u ++ (if s_clean E && is_removable o then [o] else [])))
  end.
(** modelclasses.py:953-956 [_bdict.clear]. *)
Fixpoint del_keys (ks : list str) (st : mapst) : M mapst :=
  match ks with
  | [] => ret st
  | k :: ks => x <- map_del st k;; del_keys ks (snd x)
  end.
Inductive dop := DGet (k : str) | DSet (k : str) (v : obj) | DDel (k : str) | DPop (k : str) | DLen | DKeys | DClear.
Definition map_op (st : mapst) (o : dop) : M (res obj * mapst) :=
  match o with
  | DGet k => map_get st k
  | DSet k v => map_set st k v
  | DDel k => map_del st k
  | DPop k =>
      x <- map_get st k;;
      match x with
      | (Ok v, st1) => y <- map_del st1 k;; ret (match fst y with Ok _ => Ok v | Exn e => Exn e end, snd y)
      | (Exn e, st1) => ret (Exn e, st1)
      end
  | DLen => ret (Ok (OAtom (AInt (Z.of_nat (List.length (snd (fst st)))))), st)
  | DKeys => ret (Ok (OList (map (fun kv => OAtom (AStr (fst kv))) (snd (fst st)))), st)
  | DClear => x <- del_keys (map fst (snd (fst st))) st;; ret (Ok (OAtom ANone), x)
  end.
Fixpoint map_ops (st : mapst) (l : list dop) : M (list (res obj) * mapst) :=
  match l with
  | [] => ret ([], st)
  | o :: l => x <- map_op st o;; y <- map_ops (snd x) l;; ret (fst x :: fst y, snd y)
  end.
End Containers.
