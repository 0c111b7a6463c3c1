(** Model of [Trace.from_exception] and [Trace.format] (errors.py:60-142): how chained exceptions are collected and shown. *)
From Coq Require Import List Bool Arith.
Import ListNotations.

(** The exceptions of a program: class and text, the frames of the traceback ([None] if it was never raised), [__cause__],
    [__context__] and [__suppress_context__].  Simplification: exceptions are true in a boolean context (no [__bool__] or
    [__len__] of their own); class name, text and frames are opaque. *)
Record exception := mkExc {
  e_type : nat; e_text : nat; e_traceback : option (list nat); e_cause : option nat; e_context : option nat; e_suppress : bool }.
Definition heap := nat -> exception.

(** [Stack] (errors.py:34-39). *)
Record stack := mkStack { s_type : nat; s_text : nat; s_is_cause : bool; s_frames : list nat }.

Section Chain.
Variable H : heap.

(** errors.py:115-135: where the loop goes next and the flag it sets. *)
Definition raised (x : option nat) : option nat :=
  match x with Some y => match e_traceback (H y) with Some _ => Some y | None => None end | None => None end.
Definition next (x : nat) : option (nat * bool) :=
  match raised (e_cause (H x)) with
  | Some y => Some (y, true)
  | None => match raised (e_context (H x)) with
            | Some y => if e_suppress (H x) then None else Some (y, false)
            | None => None
            end
  end.
Definition frames_of (x : nat) : list nat := match e_traceback (H x) with Some f => f | None => [] end.

(** errors.py:106-136: the loop; [fuel] bounds the number of rounds, [None] is running on. *)
Fixpoint collect (fuel : nat) (x : nat) (is_cause : bool) : option (list stack) :=
  match fuel with
  | 0 => None
  | S n =>
      let s := mkStack (e_type (H x)) (e_text (H x)) is_cause (frames_of x) in
      match next x with
      | Some (y, c) => match collect n y c with Some r => Some (s :: r) | None => None end
      | None => Some [s]
      end
  end.
(** errors.py:91-141. *)
Definition from_exception (fuel : nat) (x : nat) (ignore : nat) : option (list stack) :=
  match collect fuel x false with
  | Some (s :: r) => Some (mkStack (s_type s) (s_text s) (s_is_cause s) (skipn ignore (s_frames s)) :: r)
  | r => r
  end.
End Chain.

(** Pieces of text of [Stack.format] (errors.py:60-76). *)
Inductive piece := PNewline | PDirectCause | PTraceback (frames : list nat) | PException (ty text : nat).
Definition format_stack (single : bool) (s : stack) : list piece :=
  (if single then [PNewline] else if s_is_cause s then [] else [PDirectCause]) ++
  (match s_frames s with [] => [] | f => [PTraceback f] end) ++ [PException (s_type s) (s_text s)].
(** [Trace.format] (errors.py:143-145). *)
Definition format_trace (l : list stack) : list piece :=
  concat (map (format_stack (length l =? 1)) (rev l)).
