(** Model of dman/plotting.py: the figures that are kept as files (PdfFigure, TexFigure, PklFigure, Figure). *)
From Coq Require Import List Ascii String Bool Arith.
From Verif Require Import Base PosixModel FsModel.
Import ListNotations.

(** What may stand in the list of figures of a wrapper: a figure of matplotlib (an opaque token) or a PklFigure with its own
    list (plotting.py:195-212; see [figure_convert]). *)
Inductive item := Fig (d : str) | Pkl (l : list item).

Section Plot.
Variable cwd : str.
(** matplotlib, from outside: the page of a figure or the exception drawing it raises; what a file of finished pages
    holds; what is left in the file when drawing the next page raises ([None]: the file is not touched, which depends on
    the version of matplotlib). *)
Variable page : str -> res str.
Variable whole leftover : list str -> option content.

(** plotting.py:181-184: the loop over [self.fig]. [savefig] raises ValueError for anything that is not a figure
    (matplotlib looks it up as the number of a figure). *)
Fixpoint pages (l : list item) (done : list str) : option content * option exn :=
  match l with
  | [] => (whole done, None)
  | Pkl _ :: _ => (leftover done, Some ValueError)
  | Fig d :: r => match page d with Exn e => (leftover done, Some e) | Ok b => pages r (done ++ [b]) end
  end.

(** plotting.py:172-177 [PdfFigure]: [fig] is None or a list. The keyword arguments are part of [page]. *)
Record pdf := mkPdf { pd_fig : option (list item); pd_path : option str }.
(** plotting.py:190-192 [PdfFigure.__read__]: the file is not opened. *)
Definition pdf_read (path : str) : pdf := mkPdf None (Some path).

(** shutil.copyfile of the standard library: SameFileError is a kind of OSError. *)
Definition copyfile (fs : node) (src dst : str) : res node :=
  let s := os_loc cwd src in
  let t := os_loc cwd dst in
  match lookup fs s with
  | None => Exn FileNotFoundError
  | Some n => if list_eq_dec str_eq_dec s t then Exn OSError
              else match n with Dir _ => Exn IsADirectoryError | File c => write_file fs t c end
  end.

(** plotting.py:179-188 [PdfFigure.__write__]: the outcome, the object after the call and the files after it.
    [os.path.exists(None)] is a TypeError. *)
Definition pdf_write (g : pdf) (path : str) (fs : node) : res unit * pdf * node :=
  let moved := mkPdf (pd_fig g) (Some path) in
  match pd_fig g with
  | Some l =>
      let (c, e) := pages l [] in
      match (match c with Some c => write_file fs (os_loc cwd path) c | None => Ok fs end) with
      | Exn e' => (Exn e', g, fs)
      | Ok fs' => match e with Some e => (Exn e, g, fs') | None => (Ok tt, moved, fs') end
      end
  | None =>
      match pd_path g with
      | None => (Exn TypeError, g, fs)
      | Some p =>
          if exists_at fs (os_loc cwd p) && negb (if str_eq_dec p path then true else false) then
            match copyfile fs p path with
            | Ok fs' => (Ok tt, moved, fs')
            | Exn e => (Exn e, g, fs)
            end
          else (Ok tt, moved, fs)
      end
  end.

(** plotting.py:222-224 [TexFigure]; tikzplotlib from outside: what it writes or the exception it raises. *)
Record tex := mkTex { tx_fig : option str; tx_path : option str }.
Variable tikz : str -> res content.
(** plotting.py:242-244. *)
Definition tex_read (path : str) : tex := mkTex None (Some path).
(** plotting.py:226-240: [shutil.copyfile()] without arguments is a TypeError. *)
Definition tex_write (g : tex) (path : str) (fs : node) : res unit * tex * node :=
  let moved := mkTex (tx_fig g) (Some path) in
  match tx_fig g with
  | Some d => match tikz d with
              | Exn e => (Exn e, g, fs)
              | Ok c => match write_file fs (os_loc cwd path) c with Ok fs' => (Ok tt, moved, fs') | Exn e => (Exn e, g, fs) end
              end
  | None => match tx_path g with
            | None => (Exn TypeError, g, fs)
            | Some p => if str_eq_dec p path then (Ok tt, moved, fs) else (Exn TypeError, g, fs)
            end
  end.

(** plotting.py:248-271 [t_Figure] and [Figure]. A Figure holds a list [fig]. What stays of it in the store: the pickled
    list of content.fig and what became of preview.pdf. Storing in records is that of the store model; here only the two
    write methods are run, one after the other. The pickle of a list is the list itself. *)
Record stored := mkStored { st_pickle : list item; st_preview : option content; st_failed : option exn }.
(** plotting.py:256-258 [t_Figure.__convert__] and the write methods: 179-184 and 204-206. *)
Definition figure_save (fig : list item) : stored := let (c, e) := pages fig [] in mkStored fig c e.
(** plotting.py:208-212 [PklFigure.__read__] and 269-271 [Figure.__convert__]: [other.fig] is the PklFigure, which
    is not a list, so that [Figure.__init__] (264-267) puts it into a new list. *)
Definition figure_load (s : stored) : list item := [Pkl (st_pickle s)].
End Plot.
