(** Several processes that each load the same runs ([mruns]), append to them and save them. *)
From Coq Require Import List Bool Arith.
Import ListNotations.

(** What the file of the key holds for the runs: the numbers of the runs that are listed, in order, and [run_count]
    (modelclasses.py:1085-1090 [_bruns.__serialize__]).
    Simplification: a record is given by the number in its file name (modelclasses.py:1071-1083), so two records with one number have one file. *)
Record meta := mk_meta { m_listed : list nat; m_count : nat }.

Section Values.
Variable V : Type.

(** How far a process is.
    [Start]: before [load] (repository.py:312-314).
    [Saving pending m]: it has loaded the runs and appended to them, the records [pending] are not written yet, and [m] is what it will
    write to the file of the key.
    [Done]: after [save].
    Simplifications: appending has no effect on disk, so that it is made part of loading; the runs that were loaded stay unloaded, so that they are not written
    again (record.py:522-523); the file of the key is written in one step, and so is that of each record. *)
Inductive stage :=
| Start
| Saving (pending : list (nat * V)) (m : meta)
| Done.

(** The files: that of the key, and those of the records by number. *)
Record state := mk_state { s_meta : meta; s_data : nat -> option V; s_stage : nat -> stage }.

Definition upd (d : nat -> option V) (k : nat) (v : V) : nat -> option V := fun j => if Nat.eqb j k then Some v else d j.
Definition set_stage (f : nat -> stage) (i : nat) (x : stage) : nat -> stage := fun j => if Nat.eqb j i then x else f j.

(** modelclasses.py:1071-1083 [_bruns.__make_record__] for every value that is appended: the values get the numbers from [run_count] on. *)
Definition numbered (m : meta) (values : list V) : list (nat * V) := combine (seq (m_count m) (List.length values)) values.

(** The runs after the values are appended. *)
Definition appended (m : meta) (values : list V) : meta :=
  mk_meta (m_listed m ++ map fst (numbered m values)) (m_count m + List.length values).

(** One step of process [i], which appends the values [vals i]: it loads (repository.py:312-314), writes the next record (record.py:526, called for one item
    after the other by repository.py:224) or writes the file of the key (repository.py:225-226). *)
Definition step (vals : nat -> list V) (s : state) (i : nat) : state :=
  match s_stage s i with
  | Start => mk_state (s_meta s) (s_data s) (set_stage (s_stage s) i (Saving (numbered (s_meta s) (vals i)) (appended (s_meta s) (vals i))))
  | Saving ((k, v) :: r) m => mk_state (s_meta s) (upd (s_data s) k v) (set_stage (s_stage s) i (Saving r m))
  | Saving [] m => mk_state m (s_data s) (set_stage (s_stage s) i Done)
  | Done => s
  end.

(** The processes take steps in the order of the schedule (repository.py:234-320 and 161-231). *)
Definition run (vals : nat -> list V) (schedule : list nat) (s : state) : state := fold_left (step vals) schedule s.

(** Nobody has begun. *)
Definition initial (m : meta) (d : nat -> option V) : state := mk_state m d (fun _ => Start).

(** What reading all the runs after [load] gives (record.py:570-572, then [Record.load] for every record): [None] for a record without a file. *)
Definition runs (s : state) : list (option V) := map (s_data s) (m_listed (s_meta s)).
End Values.
Arguments Start {V}. Arguments Saving {V}. Arguments Done {V}.
Arguments mk_state {V}. Arguments s_meta {V}. Arguments s_data {V}. Arguments s_stage {V}.
Arguments upd {V}. Arguments set_stage {V}. Arguments numbered {V}. Arguments appended {V}.
Arguments step {V}. Arguments run {V}. Arguments initial {V}. Arguments runs {V}.
