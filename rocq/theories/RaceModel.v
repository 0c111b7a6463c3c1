(** Several processes that write the same [.gitignore] at the same time. *)
From Coq Require Import Ascii String List Bool Arith.
From Verif Require Import Base PosixModel FsModel PathModel.
Import ListNotations.

(** One call [gitignore(directory, ignored, check=check)] (path.py:221-228).
    [j_ignored]: the argument [ignored].
    [j_drops p]: the test of path.py:234-237 for line [p], that is: [p] is in [check] and the file [p] does not exist.
    Simplification: the outcome of this test does not change while the processes run. *)
Record job := mk_job { j_ignored : list str; j_drops : str -> bool }.

(** How far a process is within the call.  Between these stages other processes may run.
    [Start]: before [open(path, "r")] (path.py:231-232).
    [HasRead original]: after path.py:231-237.
    [Opened text]: after [open(path, "w")] (path.py:243), before the text is written.
    [Done]: after path.py:244.
    Simplifications: the reading is one step and so is the writing (Python writes the text when the file is closed; a text
    longer than the buffer would be written in several steps).
    Path.py:240-241 (the file is removed if [.gitignore] is the only line) is left out; [Mount.close] calls [gitignore] only with
    entries (path.py:433-440), so it takes an entry [.gitignore] to get there. *)
Inductive stage :=
| Start
| HasRead (original : list str)
| Opened (text : str)
| Done.

(** The file, if there is one, and the stage of every process. *)
Record state := mk_state { s_file : option str; s_stage : nat -> stage }.

Definition set_stage (f : nat -> stage) (i : nat) (x : stage) : nat -> stage := fun j => if Nat.eqb j i then x else f j.

(** Writing a text at the start of what the file holds at that time: with [open(path, "w")] the file is emptied when it is opened, not when it
    is written, and each process writes at its own position (path.py:243-244). *)
Definition overlay (text old : str) : str := text ++ skipn (List.length text) old.

(** path.py:238-239 and 244: the text to be written. *)
Definition new_text (j : job) (original : list str) : str :=
  join_lines (sorted_set (($".gitignore") :: j_ignored j ++ original)).

(** One step of process [i] (path.py:229-244). *)
Definition step (jobs : nat -> job) (s : state) (i : nat) : state :=
  match s_stage s i with
  | Start =>
      let original := match s_file s with
                      | None => []
                      | Some t => filter (fun p => negb (j_drops (jobs i) p)) (splitlines t)
                      end in
      mk_state (s_file s) (set_stage (s_stage s) i (HasRead original))
  | HasRead original => mk_state (Some []) (set_stage (s_stage s) i (Opened (new_text (jobs i) original)))
  | Opened text =>
      mk_state (Some (overlay text (match s_file s with Some t => t | None => [] end))) (set_stage (s_stage s) i Done)
  | Done => s
  end.

(** The processes take steps in the order of the schedule (path.py:221-244). *)
Definition run (jobs : nat -> job) (schedule : list nat) (s : state) : state := fold_left (step jobs) schedule s.

(** Nobody has begun. *)
Definition initial (file : option str) : state := mk_state file (fun _ => Start).
