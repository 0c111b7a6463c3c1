(** Model of [prune_directories] (path.py:248-263) one call of the operating system at a time, with other processes at
    work in between.  [PathModel.prune_directories] is the same function in one step. *)
From Coq Require Import List Ascii String Bool Arith.
From Verif Require Import Base PosixModel FsModel.
Import ListNotations.

(** What other processes do to the files, one action before every call; after the last of them nobody interferes.
    Simplification: an action is any function of the tree; it cannot see where the pruning process is. *)
Notation action := (node -> node).
Definition state : Type := node * list action.

(** A call of the operating system: first the others have their turn. *)
Definition others (s : state) : state :=
  match snd s with [] => s | a :: r => (a (fst s), r) end.

(** [os.listdir] (path.py:256). *)
Definition listdir (fs : node) (l : loc) : res (list str) :=
  match lookup fs l with
  | None => Exn FileNotFoundError
  | Some (File _) => Exn NotADirectoryError
  | Some (Dir es) => Ok (map fst es)
  end.

(** [os.rmdir] (path.py:262): only an empty directory can be removed; the root of the file system is in use. *)
Definition rmdir (fs : node) (l : loc) : res node :=
  match lookup fs l with
  | None => Exn FileNotFoundError
  | Some (File _) => Exn NotADirectoryError
  | Some (Dir (_ :: _)) => Exn OSError
  | Some (Dir []) => match l with [] => Exn OSError | _ => Ok (delete_at fs l) end
  end.

(** The loop over the names listed (path.py:255-258), with the function for one of them. *)
Fixpoint prune_names (one : loc -> state -> res bool * state) (l : loc) (names : list str) (keep : bool) (s : state)
  : res bool * state :=
  match names with
  | [] => (Ok keep, s)
  | x :: r =>
      match one (l ++ [x]) s with
      | (Exn e, s') => (Exn e, s')
      | (Ok k, s') => prune_names one l r (keep || k) s'
      end
  end.

(** path.py:248-263.  [fuel] bounds the depth of the recursion. *)
Fixpoint prune_calls (fuel : nat) (root : bool) (l : loc) (s : state) : res bool * state :=
  match fuel with
  | 0 => (Exn OutOfFuel, s)
  | S n =>
      let s1 := others s in                                          (* 250: os.path.exists *)
      if negb (exists_at (fst s1) l) then (Ok false, s1)
      else
        let s2 := others s1 in                                       (* 252: os.path.isdir *)
        if negb (is_dir (fst s2) l) then (Ok true, s2)
        else
          let s3 := others s2 in                                     (* 256: os.listdir *)
          match listdir (fst s3) l with
          | Exn e => (Exn e, s3)
          | Ok names =>
              match prune_names (prune_calls n false) l names false s3 with
              | (Exn e, s4) => (Exn e, s4)
              | (Ok true, s4) => (Ok true, s4)
              | (Ok false, s4) =>
                  if root then (Ok false, s4)
                  else
                    let s5 := others s4 in                           (* 262: os.rmdir *)
                    match rmdir (fst s5) l with
                    | Exn e => (Exn e, s5)
                    | Ok fs => (Ok false, (fs, snd s5))
                    end
              end
          end
  end.

(** What is there once the others are done too. *)
Definition settled (s : state) : node := fold_left (fun fs a => a fs) (snd s) (fst s).
