(** Independent vocabulary for stating properties about paths: which place in the file system
    a path string denotes, found by walking its components from the root. *)
From Coq Require Import List Ascii String Bool.
From Verif Require Import Base FsModel.
Import ListNotations.

(** The components of a path, between slashes. *)
Fixpoint components_from (cur : str) (p : str) : list str :=
  match p with
  | [] => [cur]
  | c :: r => if ascii_dec c "/" then cur :: components_from [] r
              else components_from (cur ++ [c]) r
  end.
Definition components (p : str) : list str := components_from [] p.

(** One step of a walk: stay at "" and ".", go up at "..", go down otherwise. *)
Definition walk_step (here : loc) (c : str) : loc :=
  if str_eq_dec c ($"") then here
  else if str_eq_dec c ($".") then here
  else if str_eq_dec c ($"..") then removelast here
  else here ++ [c].
Definition walk (here : loc) (cs : list str) : loc := fold_left walk_step cs here.

Definition absolute (p : str) : Prop := exists r, p = ("/"%char : ascii) :: r.

Definition location (cwd p : str) : loc :=
  match p with
  | c :: _ => if ascii_dec c "/" then walk [] (components p)
              else walk (walk [] (components cwd)) (components p)
  | [] => walk [] (components cwd)
  end.

(** [inside a d]: location [a] is the directory [d] or below it. *)
Definition inside (a d : loc) : Prop := exists rest, a = d ++ rest.

(** A path string without ".." component. *)
Definition no_dotdot (p : str) : Prop := ~ In ($"..") (components p).
