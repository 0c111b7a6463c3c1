(** Model of [_call_optional_context] (serializables.py:541-558): how [__serialize__], [__deserialize__], [__write__] and
    [__read__] of the user are called. *)
From Coq Require Import List Bool Arith.
From Verif Require Import Base.
Import ListNotations.

(** The parameters of a function as [inspect.signature] gives them (of a bound method: without the first), in the order
    Python requires: positional ones, the flag says whether there is a default; [*args]; keyword-only ones; [**kwargs]. *)
Record signature := mkSig { g_pos : list bool; g_var : bool; g_kwonly : list bool; g_varkw : bool }.

(** Arguments: the ones the library has (a path, an object, serialized data), the context it was given, and a new
    [BaseContext]. *)
Inductive arg := Arg (n : nat) | Context (c : nat) | NewContext.
(** What the parameters of a running function have: positional ones an argument or their default; the rest in [*args];
    keyword-only ones always their default, [**kwargs] nothing, as no keywords are passed. *)
Inductive bound := Passed (a : arg) | Default.
Record frame := mkFrame { f_pos : list bound; f_rest : list arg }.

(** Python binding positional arguments to parameters. *)
Fixpoint bind_pos (ps : list bool) (args : list arg) : option (list bound * list arg) :=
  match ps, args with
  | [], _ => Some ([], args)
  | _ :: ps, a :: args => match bind_pos ps args with Some (b, r) => Some (Passed a :: b, r) | None => None end
  | d :: ps, [] => if d then match bind_pos ps [] with Some (b, r) => Some (Default :: b, r) | None => None end else None
  end.
Definition bind_args (g : signature) (args : list arg) : option frame :=
  match bind_pos (g_pos g) args with
  | Some (b, r) =>
      if forallb (fun d => d) (g_kwonly g) && (g_var g || match r with [] => true | _ => false end)
      then Some (mkFrame b r) else None
  | None => None
  end.

(** What can be passed as a method: something with a signature and a body that returns or raises, or something for which
    [inspect.signature] raises. *)
Inductive method := Method (g : signature) (body : frame -> res nat) | NoSignature (e : exn).
(** What comes out: a value, a marker ([exc_type.from_exception]) or an exception; and whether the body ran. *)
Inductive outcome := Value (n : nat) | Marker (e : exn) | Raised (e : exn).
Record report := mkReport { r_ran : option frame; r_out : outcome }.

(** Exceptions that pass: SerializationError and ValidationError (553-554), and those not derived from Exception. *)
Definition passes (e : exn) : bool :=
  match e with SerializationError | ValidationError | KeyboardInterrupt => true | _ => false end.
Definition handled (mark : bool) (e : exn) : outcome := if passes e then Raised e else if mark then Marker e else Raised e.

Definition n_params (g : signature) : nat :=
  length (g_pos g) + (if g_var g then 1 else 0) + length (g_kwonly g) + (if g_varkw g then 1 else 0).
(** 541-558; [mark] is whether an [exc_type] is given. *)
Definition call (m : method) (args : list arg) (context : option nat) (mark : bool) : report :=
  match m with
  | NoSignature e => mkReport None (handled mark e)
  | Method g body =>
      let go l := match bind_args g l with
                  | Some f => mkReport (Some f) (match body f with Ok n => Value n | Exn e => handled mark e end)
                  | None => mkReport None (handled mark TypeError)
                  end in
      if n_params g =? length args then go args
      else if n_params g =? length args + 1 then go (args ++ [match context with Some c => Context c | None => NewContext end])
      else mkReport None (handled mark TypeError)
  end.
