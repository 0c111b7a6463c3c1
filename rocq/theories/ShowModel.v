(** Model of [normalize_path] (path.py:100-110), which shortens paths for messages and for the titles of panels. *)
From Coq Require Import Ascii String List Bool.
From Verif Require Import Base PosixModel FsModel PathModel.
Import ListNotations.

(** 100-110; [cwd] is the absolute path of the working directory. Simplification: no symbolic links, so that [resolve] only works
    on names. *)
Definition normalize_path (fs : node) (cwd path : str) : res str :=
  match get_root_path fs (os_loc cwd cwd) false with
  | Exn RootError => Ok path                                                (* 107-108 *)
  | Exn e => Exn e
  | Ok (dman, _) =>
      match strip_prefix (removelast dman) (os_loc cwd path) with
      | None => Ok path                                                     (* ValueError of relative_to: 109-110 *)
      | Some [] => Ok dot
      | Some rel => Ok (join_sep rel)
      end
  end.
