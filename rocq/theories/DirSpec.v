(** Vocabulary for directory trees. *)
From Coq Require Import List Ascii String Bool.
From Verif Require Import Base PosixModel FsModel PathModel PathSpec MountSpec.
Import ListNotations.

(** A directory lists every name at most once. *)
Fixpoint well_formed (n : node) : Prop :=
  match n with
  | File _ => True
  | Dir es => NoDup (map fst es) /\
              (fix go (l : list (str * node)) : Prop :=
                 match l with [] => True | (_, m) :: r => well_formed m /\ go r end) es
  end.

(** Some file lies at or below [l]. *)
Definition holds_file (fs : node) (l : loc) : Prop :=
  exists r c, file_at fs (l ++ r) = Some c.

(** A text without any line break. *)
Definition one_line (s : str) : Prop := forall c, In c s -> is_line_break c = false.

(** The lines [gitignore] should leave: itself, the new entries, and the old lines that are not
    both in [check] and gone from disk. *)
Definition gi_line (cwd : str) (fs : node) (dir : str) (ignored : list str) (check : list target) (p : str) : Prop :=
  p = $".gitignore" \/ In p ignored \/
  ((exists s, file_at fs (requested cwd dir ($".gitignore")) = Some (Text s) /\ In p (splitlines s)) /\
   ~ ((exists t q, In t check /\ fspath t = Ok q /\ normpath q = p) /\ exists_at fs (requested cwd dir p) = false)).

(** A key that is one ordinary file name. *)
Definition plain (k : str) : Prop := k <> [] /\ k <> $"." /\ k <> $".." /\ ~ In ("/"%char : ascii) k.

