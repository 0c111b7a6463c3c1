(** Shared vocabulary of the model: strings, exceptions, results.
    Nothing here models a particular function of /repo; the exception names are those
    raised by the cited code elsewhere. *)
From Coq Require Import List Ascii String Bool Arith NArith Lia.
Import ListNotations.

(** Python [str], restricted to code points below 256 (simplification, DESIGN.md). *)
Notation str := (list ascii).
Notation "$ s" := (list_ascii_of_string s%string) (at level 1, format "$ s").

Definition str_eq_dec : forall a b : str, {a = b} + {a <> b} := list_eq_dec ascii_dec.

(** Python exceptions seen by the modelled code.  Names follow the Python classes. *)
Inductive exn :=
| ValueError | TypeError | KeyError | IndexError | AttributeError | RuntimeError
| FileNotFoundError | IsADirectoryError | NotADirectoryError | FileExistsError | OSError
| EOFError | UnboundLocalError | KeyboardInterrupt
| TargetException | MountException | UserQuitException | RootError
| ValidationError | SerializationError | StoreError
| UserError (msg : str)          (** an exception raised by user-supplied code *)
| Crash                          (** model artefact: the process is killed at this point *)
| OutOfFuel.                     (** model artefact: recursion limit of the model reached *)

Inductive res (A : Type) := Ok (a : A) | Exn (e : exn).
Arguments Ok {A} a.
Arguments Exn {A} e.

Definition bind {A B} (r : res A) (f : A -> res B) : res B :=
  match r with Ok a => f a | Exn e => Exn e end.
Notation "'do' x <- r ; k" := (bind r (fun x => k)) (at level 200, x pattern, r at level 100, k at level 200).

Definition is_ok {A} (r : res A) : Prop := exists a, r = Ok a.

(** Character classes (Latin-1). *)
Definition code (c : ascii) : nat := nat_of_ascii c.
Definition is_digit (c : ascii) : bool := (48 <=? code c) && (code c <=? 57).
