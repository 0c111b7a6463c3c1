(** tui.py:70-198: resumable loops, [StackGenerator] and [StackLayer].

    Simplifications: the generator is started ([with stack(state) as st]) and the [keep] argument left at its default;
    progress bars, descriptions and logs are left out; the loops run over finite sequences and do not use [break]; an
    interruption is an exception in an action (KeyboardInterrupt). *)
From Coq Require Import List Arith.
Import ListNotations.

(** What the user's code does: actions, and loops [for x in st(items)] with a body for every item. *)
Inductive step := Act (a : nat) | For (items : list (list step)).

(** tui.py:71-75 [StackGenerator.__init__]: the states still to hand out, the number of layers registered so far (a
    layer is identified by its number) and the [index] dictionary. *)
Record gen := mkGen { g_state : list nat; g_count : nat; g_index : list (nat * nat) }.
Definition stack (state : list nat) : gen := mkGen state 0 [].
(** tui.py:77-79 [StackGenerator.state]. *)
Definition gen_state (g : gen) : list nat := map snd (g_index g).

(** tui.py:87-121 [StackGenerator.__call__]: the layer's number, the items to skip, [keep], the generator. *)
Definition call (g : gen) : nat * nat * bool * gen :=
  (g_count g,
   match g_state g with [] => 0 | k :: _ => k end,
   Nat.eqb (g_count g) 0,
   mkGen (tl (g_state g)) (S (g_count g)) (g_index g ++ [(g_count g, 0)])).
(** tui.py:140-144 [StackGenerator.update]. *)
Definition bump (id : nat) (g : gen) : gen :=
  mkGen (g_state g) (g_count g) (map (fun e => if Nat.eqb (fst e) id then (fst e, S (snd e)) else e) (g_index g)).
(** tui.py:134-138 [StackGenerator.remove_task]. *)
Definition drop (id : nat) (g : gen) : gen :=
  mkGen (g_state g) (g_count g) (filter (fun e => negb (Nat.eqb (fst e) id)) (g_index g)).

(** How a run ends: after how many more actions it would be interrupted ([None]: never), or interrupted. *)
Inductive ending := Goes (m : option nat) | Stopped.

(** tui.py:184-190 [StackLayer.__iter__], with the loop's body run by [body]. *)
Definition layer (body : list step -> option nat -> gen -> list nat * ending * gen) (id skip : nat) (keep : bool) :=
  fix go (items : list (list step)) (state : nat) (m : option nat) (g : gen) : list nat * ending * gen :=
    match items with
    | [] => ([], Goes m, if keep then g else drop id g)
    | x :: r =>
        match (if Nat.leb skip state then body x m g else ([], Goes m, g)) with
        | (t, Stopped, g1) => (t, Stopped, g1)
        | (t, Goes m1, g1) => let '(t2, e, g2) := go r (S state) m1 (bump id g1) in (t ++ t2, e, g2)
        end
    end.
Definition body_of (run : step -> option nat -> gen -> list nat * ending * gen) :=
  fix go (l : list step) (m : option nat) (g : gen) : list nat * ending * gen :=
    match l with
    | [] => ([], Goes m, g)
    | s :: r =>
        match run s m g with
        | (t, Stopped, g1) => (t, Stopped, g1)
        | (t, Goes m1, g1) => let '(t2, e, g2) := go r m1 g1 in (t ++ t2, e, g2)
        end
    end.
(** The user's program: the actions done, in order. *)
Fixpoint run (s : step) (m : option nat) (g : gen) : list nat * ending * gen :=
  match s with
  | Act a => match m with
             | Some 0 => ([], Stopped, g)
             | Some (S m) => ([a], Goes (Some m), g)
             | None => ([a], Goes None, g)
             end
  | For items => let '(id, skip, keep, g1) := call g in layer (body_of run) id skip keep items 0 m g1
  end.
