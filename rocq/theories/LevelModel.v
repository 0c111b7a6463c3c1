(** Model of which messages the logger shows: the methods of [Logger] (log.py:410-523) and [logger_context] (649-665), with
    [isEnabledFor] and [getEffectiveLevel] of the standard library.
    Simplifications: a message is a number; of a program only messages, errors, handlers of errors, layers and levels are
    kept; the handlers and [logging.disable] do not filter; nobody changes the level of the root logger. *)
From Coq Require Import List Bool Arith.
Import ListNotations.

Inductive kind := KInfo | KEmphasize | KIo | KHeader | KWarning | KError | KException | KDebug.
(** The level a method logs at: 428 ([info]; [emphasize] 481, [io] 491 and [header] 504 call it), 438, 449, 460 ([exception] calls
    [error], 471). *)
Definition severity (k : kind) : nat :=
  match k with KInfo | KEmphasize | KIo | KHeader => 20 | KWarning => 30 | KError | KException => 40 | KDebug => 10 end.

(** A message that was handed to the handlers: level, number of layers it is in, the message. *)
Record entry := mkE { e_level : nat; e_depth : nat; e_msg : nat }.
Record st := mkS { s_level : nat; s_root : nat; s_stack : list nat; s_out : list entry }.
(** [getEffectiveLevel]: NOTSET (0) stands for the level of the root logger. *)
Definition effective (s : st) : nat := match s_level s with 0 => s_root s | l => l end.
Definition emit (lv m : nat) (s : st) : st :=
  mkS (s_level s) (s_root s) (s_stack s) (s_out s ++ [mkE lv (length (s_stack s)) m]).
(** A call of a method; the result tells whether it raises.  [debug] hands [color] on to [_log], which does not take it (438, 533):
    TypeError, but only after the level has been checked. *)
Definition log (k : kind) (m : nat) (s : st) : bool * st :=
  if effective s <=? severity k
  then match k with KDebug => (true, s) | _ => (false, emit (severity k) m s) end
  else (false, s).

(** The argument of [logger_context]. *)
Inductive arg := ABool (b : bool) | ANum (n : nat).
(** 663: [{True: INFO, False: WARNING}.get(level, level)]; 1 and 0 are equal to [True] and [False] and found under them. *)
Definition key_eq (a b : arg) : bool :=
  let num x := match x with ABool true => 1 | ABool false => 0 | ANum n => n end in num a =? num b.
Definition level_of (a : arg) : nat :=
  if key_eq a (ABool true) then 20 else if key_eq a (ABool false) then 30
  else match a with ANum n => n | ABool b => if b then 1 else 0 end.

Inductive prog := PSkip | PMsg (k : kind) (m : nat) | PRaise | PSeq (p q : prog) | PCatch (p : prog)
                | PLayer (owner m : nat) (p : prog) | PContext (a : option arg) (p : prog) | PSetLevel (n : nat).
Definition set_level (n : nat) (s : st) : st := mkS n (s_root s) (s_stack s) (s_out s).
Definition set_stack (l : list nat) (s : st) : st := mkS (s_level s) (s_root s) l (s_out s).
Fixpoint run (p : prog) (s : st) : bool * st :=
  match p with
  | PSkip => (false, s)
  | PMsg k m => log k m s
  | PRaise => (true, s)
  | PSeq p q => match run p s with (true, s1) => (true, s1) | (false, s1) => run q s1 end
  | PCatch p => (false, snd (run p s))
  | PLayer o m p =>                                                        (* 518-523; a header never raises *)
      let s1 := snd (log KHeader m s) in
      match run p (set_stack (s_stack s1 ++ [o]) s1) with
      | (true, s2) => (true, s2)
      | (false, s2) => (false, snd (log KHeader m (set_stack (removelast (s_stack s2)) s2)))
      end
  | PContext None p => run p s                                             (* 658-660 *)
  | PContext (Some a) p =>                                                 (* 662-665 *)
      match run p (set_level (level_of a) s) with
      | (true, s2) => (true, s2)
      | (false, s2) => (false, set_level (s_level s) s2)
      end
  | PSetLevel n => (false, set_level n s)
  end.
