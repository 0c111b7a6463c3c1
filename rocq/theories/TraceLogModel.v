(** Model of how the handlers of one logger show the error that belongs to a message (log.py:209-247, 525-531): all of
    them get the same record, one after the other, and change it.
    Simplifications: an error is a number, its text and its formatted trace are not looked at (assumed not empty);
    handlers have no filters and all have a formatter (as after [config], log.py:352-355); [logging.Formatter.format]
    and [callHandlers] follow the standard library of the Python at hand, without stack information; handlers of other
    classes are not modelled.
    Assumption: [rich] was not available to read.  That [RichHandler.emit] first formats the record, shows a live
    exception as a traceback in place of its text, and else passes the formatted message on to [render], is taken from
    general knowledge of the library and not checked against the version the project uses. *)
From Coq Require Import List Bool Arith.
Import ListNotations.

(** [DManHandler] with and without [rich_tracebacks] (log.py:209-215), [StreamHandler] or [FileHandler]. *)
Inductive kind := Rich | Plain | Stream.
(** What is given as [exc_info] (log.py:403-408): nothing, a [Trace] or an exception. *)
Inductive info := NoInfo | Recorded (n : nat) | Live (n : nat).
(** Attributes of the record: [levelno], [trace] (if there), [exc_info], [exc_text] ([None] also for the empty text). *)
Record record := mkR { r_level : nat; r_trace : option nat; r_exc : option nat; r_text : option nat }.
(** What a handler shows of an error: its text after the message, or a formatted traceback. *)
Inductive shown := AsText (n : nat) | AsTrace (n : nat).

(** [Logger.pack] (log.py:403-408) and [Logger.makeRecord] (log.py:525-531). *)
Definition make_record (lv : nat) (i : info) : record :=
  match i with
  | NoInfo => mkR lv None None None
  | Recorded n => mkR lv (Some n) None (Some n)
  | Live n => mkR lv None (Some n) None
  end.

Definition text (o : option nat) : list shown := match o with Some n => [AsText n] | None => [] end.
Definition trace (o : option nat) : list shown := match o with Some n => [AsTrace n] | None => [] end.

(** [logging.Formatter.format]: the text of the exception is kept in the record, then added to the message. *)
Definition format (r : record) : list shown * record :=
  let t := match r_exc r, r_text r with Some n, None => Some n | _, t => t end in
  (text t, mkR (r_level r) (r_trace r) (r_exc r) t).

(** [DManHandler.emit] and [render] (log.py:209-223), [StreamHandler.emit]. *)
Definition emit (k : kind) (r : record) : list shown * record :=
  match k with
  | Stream => format r
  | Plain => format (mkR (r_level r) None (r_exc r) (r_text r))                                    (* 213-214 *)
  | Rich =>
      let r1 := match r_trace r with Some _ => mkR (r_level r) (r_trace r) (r_exc r) None | None => r end in  (* 211-212 *)
      let (m, r2) := format r1 in
      match r_exc r2 with
      | Some n => (match r_trace r2 with Some k => [AsTrace k] | None => [AsTrace n] end, r2)      (* 217-223 *)
      | None => (m ++ trace (r_trace r2), r2)
      end
  end.

(** [logging.Logger.callHandlers]: [None] for a handler whose level is above that of the record. *)
Fixpoint call (hs : list (kind * nat)) (r : record) : list (option (list shown)) :=
  match hs with
  | [] => []
  | (k, lv) :: rest =>
      if lv <=? r_level r then let (o, r') := emit k r in Some o :: call rest r' else None :: call rest r
  end.
