(** storables.py:219-290: [MovableIO] and [FileTarget].

    Simplifications: a file is a text found under its absolute path (no links, no missing directories); what has been written to
    the stream is in the buffer until it is flushed, and a flush appends it to the file that was opened; the stream may
    be flushed at any time ([SFlush]); encodings and binary mode are left out. *)
From Coq Require Import List Ascii String Bool.
From Verif Require Import Base PosixModel.
Import ListNotations.

Inductive fmode := ModeA | ModeW.
(** [f_base]: [baseFilename] (the current stream is open on it); [f_temp]: [tempdir is not None]; [f_buf]: written but not flushed. *)
Record ftarget := mkFt { f_disk : str -> option str; f_base : str; f_temp : bool; f_mode : fmode; f_buf : str }.

Section Stream.
Variable cwd : str.

Definition held (d : str -> option str) (p : str) : str := match d (abspath cwd p) with Some x => x | None => [] end.
Definition put_file (d : str -> option str) (p : str) (x : option str) : str -> option str :=
  fun q => if str_eq_dec q (abspath cwd p) then x else d q.
(** [open(path, mode)]: 'a' creates the file if there is none, 'w' empties it. *)
Definition open_file (d : str -> option str) (p : str) (m : fmode) : str -> option str :=
  put_file d p (Some (match m with ModeA => held d p | ModeW => [] end)).

(** 240-258 [__init__]: a given file, or a temporary one at path [tmp]. *)
Definition ft_init (d : str -> option str) (file : option str) (tmp : str) (m : fmode) : ftarget :=
  match file with
  | Some p => mkFt (open_file d p m) p false m []
  | None => mkFt (open_file d tmp m) tmp true m []
  end.
(** 227-232: setting [content] flushes the old stream. *)
Definition ft_flush (s : ftarget) : ftarget :=
  mkFt (put_file (f_disk s) (f_base s) (Some (held (f_disk s) (f_base s) ++ f_buf s))) (f_base s) (f_temp s) (f_mode s) [].
Definition ft_write (s : ftarget) (x : str) : ftarget := mkFt (f_disk s) (f_base s) (f_temp s) (f_mode s) (f_buf s ++ x).
(** 260-263 [transfer]. *)
Definition transfer (d : str -> option str) (src dst : str) : str -> option str :=
  put_file d dst (Some (held d dst ++ held d src)).
(** 265-283 [__write__]. *)
Definition ft_store (s : ftarget) (path : str) : ftarget :=
  if str_eq_dec (abspath cwd (f_base s)) (abspath cwd path) then s
  else
    let s1 := ft_flush s in
    let d := match f_disk s1 (abspath cwd (f_base s1)) with
             | None => f_disk s1
             | Some _ => let d := transfer (f_disk s1) (f_base s1) path in
                         if f_temp s1 then put_file d (f_base s1) None else d
             end in
    mkFt (open_file d path (f_mode s)) path false (f_mode s) [].
(** 285-287 [__read__]: a new object on the file (the old stream is closed, hence flushed). *)
Definition ft_reopen (s : ftarget) : ftarget :=
  let s1 := ft_flush s in ft_init (f_disk s1) (Some (f_base s1)) [] ModeA.

Inductive sop := SWrite (x : str) | SFlush | SStore (path : str) | SReopen.
Definition ft_op (s : ftarget) (o : sop) : ftarget :=
  match o with
  | SWrite x => ft_write s x
  | SFlush => ft_flush s
  | SStore p => ft_store s p
  | SReopen => ft_reopen s
  end.
End Stream.
