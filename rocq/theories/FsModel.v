(** The file system seen by /repo: a tree of directories and regular files.
    Simplifications (DESIGN.md): no symbolic links, permissions or concurrent writers; a
    location is the list of names on the way from the root directory. *)
From Coq Require Import List Ascii String Bool Arith ZArith Lia.
From Verif Require Import Base PosixModel.
Import ListNotations.

(** Values of the JSON format, as produced by [json.loads] and consumed by [json.dumps]
    (dman/utils/sjson.py:1-12).  Floats are opaque tokens. *)
Inductive json :=
| JNull
| JBool (b : bool)
| JInt (z : Z)
| JFloat (f : Z)
| JStr (s : str)
| JList (l : list json)
| JDict (d : list (str * json)).

(** File contents: plain text/bytes, or text that is the JSON encoding of a value
    (dman/core/storables.py:139-158 writes the latter). *)
Inductive content := Text (s : str) | Json (j : json).

Inductive node :=
| File (c : content)
| Dir (es : list (str * node)).

Notation loc := (list (list ascii)).

(** Association lists: directory listings and Python dicts with string keys. *)
Fixpoint assoc {A} (k : str) (l : list (str * A)) : option A :=
  match l with
  | [] => None
  | (x, v) :: r => if str_eq_dec x k then Some v else assoc k r
  end.

Fixpoint assoc_set {A} (k : str) (v : A) (l : list (str * A)) : list (str * A) :=
  match l with
  | [] => [(k, v)]
  | (x, w) :: r => if str_eq_dec x k then (x, v) :: r else (x, w) :: assoc_set k v r
  end.

Fixpoint assoc_del {A} (k : str) (l : list (str * A)) : list (str * A) :=
  match l with
  | [] => []
  | (x, w) :: r => if str_eq_dec x k then assoc_del k r else (x, w) :: assoc_del k r
  end.

(** What is stored at a location ([os.path.exists], [os.path.isdir];
    dman/core/path.py:232, 237, 250-253, 417, 464-466). *)
Fixpoint lookup (n : node) (l : loc) : option node :=
  match l with
  | [] => Some n
  | x :: r =>
      match n with
      | Dir es => match assoc x es with Some m => lookup m r | None => None end
      | File _ => None
      end
  end.

Definition is_dir (n : node) (l : loc) : bool :=
  match lookup n l with Some (Dir _) => true | _ => false end.

Definition exists_at (n : node) (l : loc) : bool :=
  match lookup n l with Some _ => true | None => false end.

Definition file_at (n : node) (l : loc) : option content :=
  match lookup n l with Some (File c) => Some c | _ => None end.

(** [open(path, 'w')] followed by writing [c] and closing: creates or replaces a file in an
    existing directory (dman/core/path.py:244-245, dman/core/storables.py:139-158). *)
Fixpoint write_file (n : node) (l : loc) (c : content) : res node :=
  match l with
  | [] => Exn IsADirectoryError
  | x :: r =>
      match n with
      | File _ => Exn NotADirectoryError
      | Dir es =>
          match r with
          | [] =>
              match assoc x es with
              | Some (Dir _) => Exn IsADirectoryError
              | _ => Ok (Dir (assoc_set x (File c) es))
              end
          | _ =>
              match assoc x es with
              | None => Exn FileNotFoundError
              | Some m =>
                  match write_file m r c with
                  | Ok m' => Ok (Dir (assoc_set x m' es))
                  | Exn e => Exn e
                  end
              end
          end
      end
  end.

(** [os.makedirs] of a location, as guarded by [os.path.isdir] in [Mount.prepare]
    (dman/core/path.py:417-419): creates the missing directories. *)
Fixpoint makedirs (n : node) (l : loc) : res node :=
  match l with
  | [] => match n with Dir _ => Ok n | File _ => Exn FileExistsError end
  | x :: r =>
      match n with
      | File _ => Exn NotADirectoryError
      | Dir es =>
          match makedirs match assoc x es with Some m => m | None => Dir [] end r with
          | Ok m' => Ok (Dir (assoc_set x m' es))
          | Exn e => Exn e
          end
      end
  end.

(** [os.remove] of a file or [os.rmdir] of a directory, after the caller has checked that
    the location exists (dman/core/path.py:242, 262, 464-467). *)
Fixpoint delete_at (n : node) (l : loc) : node :=
  match l with
  | [] => n
  | x :: r =>
      match n with
      | File _ => n
      | Dir es =>
          match r with
          | [] => Dir (assoc_del x es)
          | _ => match assoc x es with
                 | Some m => Dir (assoc_set x (delete_at m r) es)
                 | None => n
                 end
          end
      end
  end.

(** Replace the node at an existing location; used for the net effect of [prune_directories]
    on a sub tree (dman/core/path.py:248-263). *)
Fixpoint replace_at (n : node) (l : loc) (m : node) : node :=
  match l with
  | [] => m
  | x :: r =>
      match n with
      | File _ => n
      | Dir es => match assoc x es with
                  | Some k => Dir (assoc_set x (replace_at k r m) es)
                  | None => n
                  end
      end
  end.

(** [os.remove(path)] (dman/core/path.py:242, 467). *)
Definition os_remove (n : node) (l : loc) : res node :=
  match lookup n l with
  | None => Exn FileNotFoundError
  | Some (Dir _) => Exn IsADirectoryError
  | Some (File _) => Ok (delete_at n l)
  end.

(** Location named by a path string in working directory [cwd]; resolution is lexical. *)
Definition os_loc (cwd p : str) : loc := comps_ne (abspath cwd p).
