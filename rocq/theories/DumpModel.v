(** Model of how storables are written as JSON: [_write__dataclass] and [_write__serializable] (storables.py:139-141, 150-152) with
    [sjson.dump(…, indent=4)] (sjson.py:17-18) on top of Python's [json.dump], which writes piece by piece. *)
From Coq Require Import Ascii String List Bool Arith.
From Verif Require Import Base PosixModel FsModel.
Import ListNotations.

(** Keys: texts (also those of numbers, booleans and None), and keys json refuses, such as tuples. Values: numbers, booleans and
    null by their text; texts (also the ones sjson puts in place of other objects, sjson.py:5-10); lists; dicts.
    Simplifications: no cycles, no recursion limit, Latin-1 text. *)
Inductive dkey := KText (s : str) | KRefused.
Inductive dval := DNum (s : str) | DStr (s : str) | DList (l : list dval) | DDict (d : list (dkey * dval)).

Definition quote : ascii := """"%char.
Definition backslash : ascii := "\"%char.
Definition newline : ascii := ascii_of_nat 10.
Definition hex (n : nat) : ascii := if n <? 10 then ascii_of_nat (48 + n) else ascii_of_nat (87 + n).
(** [json.encoder.py_encode_basestring_ascii]. *)
Definition escape (c : ascii) : str :=
  let n := nat_of_ascii c in
  if ascii_dec c quote then [backslash; quote]
  else if ascii_dec c backslash then [backslash; backslash]
  else if n =? 10 then $"\n" else if n =? 13 then $"\r" else if n =? 9 then $"\t" else if n =? 12 then $"\f" else if n =? 8 then $"\b"
  else if (32 <=? n) && (n <=? 126) then [c]
  else $"\u00" ++ [hex (n / 16); hex (n mod 16)].
Definition encode (s : str) : str := quote :: flat_map escape s ++ [quote].
Definition new_line (level : nat) : str := newline :: repeat " "%char (4 * level).
(** [json.encoder._make_iterencode] with an indent: what has been written, and whether it came to the end (a key that is refused
    is a TypeError, raised before anything of that item is written). *)
Fixpoint write_text (level : nat) (v : dval) : str * bool :=
  match v with
  | DNum s => (s, true)
  | DStr s => (encode s, true)
  | DList [] => ($"[]", true)
  | DList l =>
      let '(s, ok) :=
        (fix go (first : bool) (l : list dval) : str * bool :=
           match l with
           | [] => ([], true)
           | x :: r =>
               let pre := if first then [] else ","%char :: new_line (S level) in
               let '(s, ok) := write_text (S level) x in
               if ok then let '(s2, ok2) := go false r in (pre ++ s ++ s2, ok2) else (pre ++ s, false)
           end) true l in
      if ok then ("["%char :: new_line (S level) ++ s ++ new_line level ++ $"]", true) else ("["%char :: new_line (S level) ++ s, false)
  | DDict [] => ($"{}", true)
  | DDict d =>
      let '(s, ok) :=
        (fix go (first : bool) (d : list (dkey * dval)) : str * bool :=
           match d with
           | [] => ([], true)
           | (KRefused, _) :: _ => ([], false)
           | (KText k, x) :: r =>
               let pre := (if first then [] else ","%char :: new_line (S level)) ++ encode k ++ $": " in
               let '(s, ok) := write_text (S level) x in
               if ok then let '(s2, ok2) := go false r in (pre ++ s ++ s2, ok2) else (pre ++ s, false)
           end) true d in
      if ok then ("{"%char :: new_line (S level) ++ s ++ new_line level ++ $"}", true) else ("{"%char :: new_line (S level) ++ s, false)
  end.
(** storables.py:139-141, 150-152: the file is opened (and emptied) first, then the data is made ([asdict] or [serialize], which may
    raise), then it is written. *)
Definition write_json (fs : node) (l : loc) (data : res dval) : res unit * node :=
  match write_file fs l (Text []) with
  | Exn e => (Exn e, fs)
  | Ok fs1 =>
      match data with
      | Exn e => (Exn e, fs1)
      | Ok v => let '(s, ok) := write_text 0 v in
                match write_file fs1 l (Text s) with
                | Ok fs2 => (if ok then Ok tt else Exn TypeError, fs2)
                | Exn e => (Exn e, fs1)
                end
      end
  end.
