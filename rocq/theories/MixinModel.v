(** Programs that use a model list or dict, and the methods that [_blist] and [_bdict] inherit from [MutableSequence] and
    [MutableMapping] (modelclasses.py:602, 803; the standard library module [collections.abc]).

    Simplifications: the comparison [v is value or v == value] is a function [same] of the two values that does not change
    them; [index] has no start and stop; [in] and [count] of a list look at all items; a pair is a list of two; the keys
    of dicts are strings. *)
From Coq Require Import List Ascii String Bool Arith ZArith.
From Verif Require Import Base PosixModel FsModel PathModel SerialModel StoreModel ContainerModel.
Import ListNotations.

(** A program: the next operation may depend on the results so far. *)
Inductive prog (O : Type) := Done (r : res obj) | Do (o : O) (k : res obj -> prog O).
Arguments Done {O} r.
Arguments Do {O} o k.
(** An exception ends the program. *)
Definition use {O} (o : O) (k : obj -> prog O) : prog O := Do o (fun r => match r with Ok v => k v | Exn e => Done (Exn e) end).
Definition none {O} : prog O := Done (Ok (OAtom ANone)).

Section Run.
Variable E : senv.
Variable n : nat.
Fixpoint seq_run (p : prog sop) (st : seqst) : M (res obj * seqst) :=
  match p with
  | Done r => ret (r, st)
  | Do o k => x <- seq_op E n st o;; seq_run (k (fst x)) (snd x)
  end.
Fixpoint map_run (p : prog dop) (st : mapst) : M (res obj * mapst) :=
  match p with
  | Done r => ret (r, st)
  | Do o k => x <- map_op E n st o;; map_run (k (fst x)) (snd x)
  end.
End Run.

(** * Lists *)
Section Seq.
Variable same : obj -> obj -> bool.
(** [MutableSequence.reverse]: for i in range(n // 2): self[i], self[n-i-1] = self[n-i-1], self[i]. *)
Fixpoint swap_from (len more i : nat) : prog sop :=
  match more with
  | 0 => none
  | S more =>
      let j := Z.of_nat (len - i - 1) in
      use (LGet j) (fun x => use (LGet (Z.of_nat i)) (fun y =>
      use (LSet (Z.of_nat i) x) (fun _ => use (LSet j y) (fun _ => swap_from len more (S i)))))
  end.
Definition p_reverse : prog sop :=
  use LLen (fun v => match v with OAtom (AInt z) => swap_from (Z.to_nat z) (Z.to_nat z / 2) 0 | _ => Done (Exn TypeError) end).
(** [Sequence.index]: items are looked at until one is found or there is an IndexError; [fuel] bounds the search. *)
Fixpoint search (v : obj) (fuel i : nat) (found : nat -> prog sop) : prog sop :=
  match fuel with
  | 0 => Done (Exn OutOfFuel)
  | S fuel =>
      Do (LGet (Z.of_nat i)) (fun r =>
        match r with
        | Ok x => if same x v then found i else search v fuel (S i) found
        | Exn IndexError => Done (Exn ValueError)
        | Exn e => Done (Exn e)
        end)
  end.
Definition p_index (fuel : nat) (v : obj) : prog sop := search v fuel 0 (fun i => Done (Ok (OAtom (AInt (Z.of_nat i))))).
(** [MutableSequence.remove]: del self[self.index(value)]. *)
Definition p_remove (fuel : nat) (v : obj) : prog sop := search v fuel 0 (fun i => use (LDel (Z.of_nat i)) (fun _ => none)).
(** [Sequence.count], [Sequence.__contains__]. *)
Definition over_items (f : list obj -> atom) : prog sop :=
  use LIter (fun v => match v with OList l => Done (Ok (OAtom (f l))) | _ => Done (Exn TypeError) end).
Definition p_count (v : obj) : prog sop := over_items (fun l => AInt (Z.of_nat (List.length (filter (fun x => same x v) l)))).
Definition p_contains (v : obj) : prog sop := over_items (fun l => ABool (existsb (fun x => same x v) l)).
(** [Sequence.__reversed__], all of it: for i in reversed(range(len(self))): yield self[i]. *)
Fixpoint down_from (i : nat) (got : list obj) : prog sop :=
  match i with
  | 0 => Done (Ok (OList got))
  | S i => use (LGet (Z.of_nat i)) (fun v => down_from i (got ++ [v]))
  end.
Definition p_reversed : prog sop :=
  use LLen (fun v => match v with OAtom (AInt z) => down_from (Z.to_nat z) [] | _ => Done (Exn TypeError) end).

Inductive lmethod := MReverse | MIndex (v : obj) | MRemove (v : obj) | MCount (v : obj) | MContains (v : obj) | MReversed.
Definition list_prog (fuel : nat) (m : lmethod) : prog sop :=
  match m with
  | MReverse => p_reverse
  | MIndex v => p_index fuel v
  | MRemove v => p_remove fuel v
  | MCount v => p_count v
  | MContains v => p_contains v
  | MReversed => p_reversed
  end.
End Seq.

(** * Dicts *)
(** A lookup with a KeyError handled. *)
Definition lookup_or (k : str) (missing : prog dop) (found : obj -> prog dop) : prog dop :=
  Do (DGet k) (fun r => match r with Ok v => found v | Exn KeyError => missing | Exn e => Done (Exn e) end).
(** [MutableMapping.update] of pairs. *)
Fixpoint p_update (ps : list (str * obj)) : prog dop :=
  match ps with
  | [] => none
  | (k, v) :: ps => use (DSet k v) (fun _ => p_update ps)
  end.
(** [ValuesView.__iter__], [ItemsView.__iter__], all of it. *)
Fixpoint each_key (one : str -> obj -> obj) (ks : list obj) (got : list obj) : prog dop :=
  match ks with
  | [] => Done (Ok (OList got))
  | OAtom (AStr k) :: ks => use (DGet k) (fun v => each_key one ks (got ++ [one k v]))
  | _ :: _ => Done (Exn TypeError)
  end.
Definition over_keys (f : list obj -> prog dop) : prog dop :=
  use DKeys (fun v => match v with OList l => f l | _ => Done (Exn TypeError) end).
Definition pair_of (k : str) (v : obj) : obj := OList [OAtom (AStr k); v].

Inductive dmethod := MGet (k : str) (default : obj) | MIn (k : str) | MPop (k : str) (default : obj) | MPopitem
                   | MSetdefault (k : str) (v : obj) | MUpdate (ps : list (str * obj)) | MItems | MValues.
Definition dict_prog (m : dmethod) : prog dop :=
  match m with
  | MGet k dflt => lookup_or k (Done (Ok dflt)) (fun v => Done (Ok v))                                (* [Mapping.get] *)
  | MIn k => lookup_or k (Done (Ok (OAtom (ABool false)))) (fun _ => Done (Ok (OAtom (ABool true))))  (* [Mapping.__contains__] *)
  | MPop k dflt => lookup_or k (Done (Ok dflt)) (fun v => use (DDel k) (fun _ => Done (Ok v)))        (* [MutableMapping.pop] *)
  | MPopitem =>                                                                                      (* [MutableMapping.popitem] *)
      over_keys (fun ks => match ks with
                           | [] => Done (Exn KeyError)
                           | OAtom (AStr k) :: _ => use (DGet k) (fun v => use (DDel k) (fun _ => Done (Ok (pair_of k v))))
                           | _ => Done (Exn TypeError)
                           end)
  | MSetdefault k v => lookup_or k (use (DSet k v) (fun _ => Done (Ok v))) (fun x => Done (Ok x))     (* [MutableMapping.setdefault] *)
  | MUpdate ps => p_update ps
  | MItems => over_keys (fun ks => each_key pair_of ks [])
  | MValues => over_keys (fun ks => each_key (fun _ v => v) ks [])
  end.
