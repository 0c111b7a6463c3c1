(** Model of [tui.progress] (tui.py:48-66): the elements it passes on, the length of the bar and the texts beside it. *)
From Coq Require Import Ascii String List Bool Arith.
From Verif Require Import Base.
Import ListNotations.

(** An iterable: its length if it has one, its elements, and the exception it ends with, if any. *)
Record iterable (A : Type) := mkIter { it_len : option nat; it_items : list A; it_end : option exn }.
Arguments mkIter {A}. Arguments it_len {A}. Arguments it_items {A}. Arguments it_end {A}.

(** Python's [str.format]: characters, and fields between braces. Simplification: a brace inside a field, which Python allows in
    format specifications, is taken as an error. *)
Inductive token := TChar (c : ascii) | TField (s : str).
Fixpoint scan (field : option str) (s : str) : res (list token) :=
  match field, s with
  | None, [] => Ok []
  | None, "{"%char :: r =>
      match r with
      | "{"%char :: r' => do l <- scan None r'; Ok (TChar "{"%char :: l)
      | _ => scan (Some []) r
      end
  | None, "}"%char :: r =>
      match r with
      | "}"%char :: r' => do l <- scan None r'; Ok (TChar "}"%char :: l)
      | _ => Exn ValueError
      end
  | None, c :: r => do l <- scan None r; Ok (TChar c :: l)
  | Some _, [] => Exn ValueError
  | Some f, "}"%char :: r => do l <- scan None r; Ok (TField f :: l)
  | Some _, "{"%char :: _ => Exn ValueError
  | Some f, c :: r => scan (Some (f ++ [c])) r
  end.

Section Progress.
(** [str] of a number; what a field other than [{i}] and [{t}] gives (a KeyError or IndexError for other names, a text for
    fields with specifications). *)
Variable show : nat -> str.
Variable other : str -> nat -> nat -> res str.
Definition field_text (i t : nat) (f : str) : res str :=
  if str_eq_dec f ($"i") then Ok (show i) else if str_eq_dec f ($"t") then Ok (show t) else other f i t.
Fixpoint fill (i t : nat) (l : list token) : res str :=
  match l with
  | [] => Ok []
  | TChar c :: l => do r <- fill i t l; Ok (c :: r)
  | TField f :: l => do x <- field_text i t f; do r <- fill i t l; Ok (x ++ r)
  end.
Definition str_format (s : str) (i t : nat) : res str := do l <- scan None s; fill i t l.

Variable A : Type.
(** What happened: the length of the bar, the texts it showed, the elements passed on, how it ended. *)
Record shown := mkShown { p_total : nat; p_texts : list str; p_items : list A; p_end : option exn }.
(** 63-66 *)
Fixpoint loop (gen : nat -> res str) (i : nat) (items : list A) (e : option exn) : list str * list A * option exn :=
  match items with
  | [] => ([], [], e)
  | o :: r => match gen (i + 1) with
              | Exn x => ([], [], Some x)
              | Ok s => let '(ts, os, x) := loop gen (i + 1) r e in (s :: ts, o :: os, x)
              end
  end.
(** 48-66, for a consumer that takes all elements. *)
Definition progress (it : iterable A) (description : str) (show_state : bool) (total : option nat) : shown :=
  let total := match total with Some t => Some t | None => it_len it end in
  let '(total, gen) :=
    match total, show_state with
    | Some (S t), true => (S t, fun i => str_format (description ++ $" [{i}/{t}]") i (S t))
    | _, _ => (100, fun _ => Ok description)
    end in
  match gen 0 with
  | Exn x => mkShown total [] [] (Some x)
  | Ok s => let '(ts, os, x) := loop gen 0 (it_items it) (it_end it) in mkShown total (s :: ts) os x
  end.
End Progress.
Arguments p_total {A}. Arguments p_texts {A}. Arguments p_items {A}. Arguments p_end {A}. Arguments mkShown {A}.
