(** repository.py:23-43: [_InterruptTracker] and [uninterrupted].

    Simplifications: signals are delivered between the steps of the program (as CPython does between bytecodes);
    several pending interrupts at one point are one delivery; the program inside the block is a sequence of
    steps, possibly ending in an exception, possibly with further blocks. *)
From Coq Require Import List Bool Arith Lia.
Import ListNotations.

(** What [signal.getsignal(SIGINT)] can be: Python's default handler (raises KeyboardInterrupt), SIG_IGN, or the
    bound method of tracker number [i]. *)
Inductive handler := HDefault | HIgnore | HTrack (i : nat).
Inductive iexn := KeyboardInterrupt | UserError (k : nat).
(** Programs. [Step k]: one step of the user's code; [Fail k]: the user's code raises. *)
Inductive prog := Step (k : nat) | Fail (k : nat) | Seq (p q : prog) | Unint (p : prog).

(** [i_now]: number of delivery points passed; [i_seen]: [tracker.value is not None] per tracker; [i_done]: the
    user's steps executed so far. *)
Record ist := mkIst { i_now : nat; i_hnd : handler; i_seen : list bool; i_done : list nat }.

Fixpoint put {A} (n : nat) (x : A) (l : list A) : list A :=
  match l, n with
  | [], _ => []
  | _ :: r, 0 => x :: r
  | y :: r, S n => y :: put n x r
  end.

Section Run.
(** Whether an interrupt arrives at a delivery point. *)
Variable sched : nat -> bool.

(** One delivery point: the handler runs if an interrupt arrived (29-30 for a tracker). *)
Definition tick (s : ist) : option iexn * ist :=
  let s1 := mkIst (S (i_now s)) (i_hnd s) (i_seen s) (i_done s) in
  if sched (i_now s) then
    match i_hnd s with
    | HDefault => (Some KeyboardInterrupt, s1)
    | HIgnore => (None, s1)
    | HTrack i => (None, mkIst (i_now s1) (i_hnd s1) (put i true (i_seen s1)) (i_done s1))
    end
  else (None, s1).

(** 33-43.  Delivery points: before the handler is set (38), before it is restored (40), after that (41). *)
Fixpoint run (p : prog) (s : ist) : option iexn * ist :=
  match p with
  | Step k => match tick s with
              | (Some e, s1) => (Some e, s1)
              | (None, s1) => (None, mkIst (i_now s1) (i_hnd s1) (i_seen s1) (i_done s1 ++ [k]))
              end
  | Fail k => match tick s with (Some e, s1) => (Some e, s1) | (None, s1) => (Some (UserError k), s1) end
  | Seq p q => match run p s with (Some e, s1) => (Some e, s1) | (None, s1) => run q s1 end
  | Unint p =>
      match tick s with
      | (Some e, s1) => (Some e, s1)
      | (None, s1) =>
          let id := List.length (i_seen s1) in
          let original := i_hnd s1 in
          match run p (mkIst (i_now s1) (HTrack id) (i_seen s1 ++ [false]) (i_done s1)) with
          | (Some e, s2) => (Some e, s2)          (* thrown in at the [yield]: nothing after it runs *)
          | (None, s2) =>
              match tick s2 with
              | (Some e, s3) => (Some e, s3)
              | (None, s3) =>
                  match tick (mkIst (i_now s3) original (i_seen s3) (i_done s3)) with
                  | (Some e, s4) => (Some e, s4)
                  | (None, s4) => if nth id (i_seen s4) false then (Some KeyboardInterrupt, s4) else (None, s4)
                  end
              end
          end
      end
  end.
End Run.
