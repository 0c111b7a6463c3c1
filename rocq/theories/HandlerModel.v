(** Model of [log.config] (log.py:286-356): which handlers the logger has, how they format and which are closed; and of the
    functions for messages, which configure the logger if it has no handlers (544-646). *)
From Coq Require Import List Bool Arith.
From Verif Require Import Base.
Import ListNotations.

(** Formats: [DEFAULT_FORMAT], [DEFAULT_FORMAT_LEVEL], others. *)
Inductive format := FDefault | FLevel | FUser (n : nat).
(** Where a handler writes: a file, what [default_handler] makes for a stream ([None]: the standard one), or elsewhere (a
    handler of the user). *)
Inductive dest := DFile (n : nat) | DStream (s : option nat) (rich : bool) | DUser.
Record handler := mkH { h_dest : dest; h_fmt : option format; h_closed : bool }.
(** Handlers are objects: numbers with a heap. [s_attached]: [logger.handlers]; [s_level]: [logger.level]. *)
Record st := mkSt { s_heap : nat -> handler; s_next : nat; s_attached : list nat; s_level : nat }.

(** Arguments of [config]; a filename may be empty ([Some None]); [a_rich] is [use_rich] in the keywords. *)
Record args := mkArgs { a_level : option nat; a_file : option (option nat); a_stream : option nat; a_format : option format;
                        a_handlers : option (list nat); a_force : bool; a_rich : bool }.

Section Config.
(** The files that can be opened. *)
Variable opens : nat -> bool.

Definition is_some {A} (o : option A) : bool := match o with Some _ => true | None => false end.
Definition upd (f : nat -> handler) (h : nat) (x : handler) : nat -> handler := fun q => if q =? h then x else f q.
Definition close (f : nat -> handler) (h : nat) : nat -> handler := upd f h (mkH (h_dest (f h)) (h_fmt (f h)) true).
(** 325-328; [removeHandler] of all attached handlers leaves none. *)
Definition close_all (s : st) : st := mkSt (fold_left close (s_attached s) (s_heap s)) (s_next s) [] (s_level s).
(** 331-337 *)
Definition conflict (a : args) : bool :=
  match a_handlers a with
  | None => is_some (a_stream a) && is_some (a_file a)
  | Some _ => is_some (a_stream a) || is_some (a_file a)
  end.
(** 338-343 *)
Definition handlers_for (a : args) (s : st) : res (list nat * st) :=
  match a_handlers a with
  | Some l => Ok (l, s)
  | None =>
      do d <- match a_file a with
              | Some (Some n) => if opens n then Ok (DFile n) else Exn OSError
              | _ => Ok (DStream (a_stream a) (a_rich a))
              end;
      Ok ([s_next s], mkSt (upd (s_heap s) (s_next s) (mkH d None false)) (S (s_next s)) (s_attached s) (s_level s))
  end.
(** 345-352; [addHandler] ignores a handler that is there. *)
Definition format_for (a : args) : format :=
  match a_format a with Some f => f | None => if a_rich a then FDefault else FLevel end.
Definition attach (f : format) (s : st) (h : nat) : st :=
  let x := s_heap s h in
  mkSt (match h_fmt x with None => upd (s_heap s) h (mkH (h_dest x) (Some f) (h_closed x)) | Some _ => s_heap s end) (s_next s)
       (if in_dec Nat.eq_dec h (s_attached s) then s_attached s else s_attached s ++ [h]) (s_level s).
(** 354-355 *)
Definition set_level (a : args) (s : st) : st :=
  mkSt (s_heap s) (s_next s) (s_attached s) (match a_level a with Some l => l | None => s_level s end).
Definition config (a : args) (s : st) : res unit * st :=
  let s := if a_force a then close_all s else s in
  match s_attached s with
  | _ :: _ => (Ok tt, set_level a s)
  | [] =>
      if conflict a then (Exn ValueError, s)
      else match handlers_for a s with
           | Exn e => (Exn e, s)
           | Ok (l, s) => (Ok tt, set_level a (fold_left (attach (format_for a)) l s))
           end
  end.
(** 286-288 *)
Definition default_args : args := mkArgs None None None None None true true.
(** [info], [warning], … of the module (544-646): the handlers that get the message. Simplifications: the level of the
    message is high enough; the levels of handlers are not set. *)
Definition message (s : st) : list nat * st :=
  let s := match s_attached s with [] => snd (config default_args s) | _ => s end in (s_attached s, s).

(** Programs: a new handler of the user, with or without a formatter; [config], with handlers that exist (otherwise it is not a
    program: nothing happens); a message. *)
Definition exist (a : args) (s : st) : bool :=
  match a_handlers a with Some l => forallb (fun h => h <? s_next s) l | None => true end.
Inductive op := NewHandler (f : option format) | Config (a : args) | Message.
Definition step (s : st) (o : op) : st :=
  match o with
  | NewHandler f => mkSt (upd (s_heap s) (s_next s) (mkH DUser f false)) (S (s_next s)) (s_attached s) (s_level s)
  | Config a => if exist a s then snd (config a s) else s
  | Message => snd (message s)
  end.
Definition start : st := mkSt (fun _ => mkH DUser None false) 0 [] 0.
Definition run (l : list op) : st := fold_left step l start.
End Config.
