(** Model of [Mount.open] (path.py:442-451) and, for a context at the directory of its mount, [Context.open] (record.py:327-332): files opened
    by the user through a mount. *)
From Coq Require Import Ascii String List Bool.
From Verif Require Import Base PosixModel FsModel PathModel.
Import ListNotations.

Inductive mode := MRead | MWrite.
(** What a block does with the file: the text it writes, how much of it has reached the file when the block is left by an
    exception (the rest is in the buffer of the open file), and that exception. *)
Record block := mkBlock { b_text : str; b_flushed : str; b_raises : option exn }.
(** The result of the with statement (what there was to read, or an exception), whether the file was closed by it (if it was
    opened), the files and the mount afterwards. *)
Record opened := mkOpened { o_result : res (option content); o_closed : option bool; o_fs : node; o_mount : mount }.

(** 442-451: the name is registered whatever the mode; there is no [try] around the [yield]. Simplification: text files, the
    modes 'r' and 'w', policies that do not ask the user. *)
Definition mount_open (cwd conf : str) (fs : node) (m : mount) (path : str) (md : mode) (b : block) : opened :=
  match prepare cwd conf fs m path true None [] with                                  (* 448 *)
  | (Exn e, (fs', m', _)) => mkOpened (Exn e) None fs' m'
  | (Ok t, (fs', m', _)) =>
      match fspath t with
      | Exn e => mkOpened (Exn e) None fs' m'
      | Ok p =>
          let l := os_loc cwd (join2 (m_dir m') p) in
          let leave r := match b_raises b with None => (Ok r, Some true) | Some e => (Exn e, Some false) end in
          match md with
          | MRead =>
              match lookup fs' l with
              | Some (File c) => let (r, k) := leave (Some c) in mkOpened r k fs' m'
              | Some (Dir _) => mkOpened (Exn IsADirectoryError) None fs' m'
              | None => mkOpened (Exn FileNotFoundError) None fs' m'
              end
          | MWrite =>
              let s := match b_raises b with None => b_text b | Some _ => b_flushed b end in
              match write_file fs' l (Text s) with
              | Ok fs2 => let (r, k) := leave None in mkOpened r k fs2 m'
              | Exn e => mkOpened (Exn e) None fs' m'
              end
          end
      end
  end.
