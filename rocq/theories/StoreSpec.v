(** Vocabulary for statements about records, containers and the repository. *)
From Coq Require Import List Ascii String Bool Arith ZArith.
From Verif Require Import Base PosixModel FsModel PathModel SerialModel StoreModel PathSpec MountSpec DirSpec.
Import ListNotations.

(** The directory of mount number [j]. *)
Definition mount_at (w : world) (j : nat) (d : str) : Prop :=
  exists m, nth_error (w_mounts w) j = Some m /\ m_dir m = d.

(** The places where the file operations [evs] may change a file: a file opened for writing, a file removed
    through a mount, and the .gitignore in the directory of a closed mount or in the directory around it. *)
Inductive hit (E : senv) (w : world) (evs : list event) : loc -> Prop :=
| hit_write l : In (EvWrite l) evs -> hit E w evs l
| hit_remove j path d : In (EvRemove j path) evs -> mount_at w j d -> hit E w evs (requested (s_cwd E) d path)
| hit_close j d : In (EvClose j) evs -> mount_at w j d -> hit E w evs (location (s_cwd E) d ++ [$".gitignore"])
| hit_close_up j d : In (EvClose j) evs -> mount_at w j d ->
    hit E w evs (location (s_cwd E) (fst (path_split d)) ++ [$".gitignore"]).

(** Same content in every file of a set of locations. *)
Definition same_files (P : loc -> Prop) (w w' : world) : Prop :=
  forall q, P q -> file_at (w_fs w') q = file_at (w_fs w) q.

(** [places t cs]: the target names the file with components [cs], seen from the directory it is used in.
    Its sub directory is relative and does not go up, its name is an ordinary file name. *)
Definition named_component (c : str) : bool :=
  if str_eq_dec c ($"") then false else if str_eq_dec c ($".") then false else true.
Definition places (t : target) (cs : list str) : Prop :=
  exists sd nm, t_subdir t = Some sd /\ t_name t = Ok nm /\ plain nm /\ ~ absolute sd /\ no_dotdot sd /\
    cs = filter named_component (components sd) ++ [nm].

(** The suffix of a record's file when the user gave none. *)
Inductive usual_suffix (E : senv) : obj -> str -> Prop :=
| us_ext c d j x : k_kind (s_class E c) = SLeaf j (Some x) -> usual_suffix E (OLeaf c d) x
| us_dataclass c d : k_kind (s_class E c) = SLeaf true None -> usual_suffix E (OLeaf c d) ($".json")
| us_other c d : k_kind (s_class E c) = SLeaf false None -> usual_suffix E (OLeaf c d) (s_suffix E)
| us_model c fs u : usual_suffix E (OModel c fs u) ($".json")
| us_seq q s u : usual_suffix E (OSeq q s u) ($".json")
| us_map p s u : usual_suffix E (OMap p s u) ($".json").

(** The parts of serialized data, and data in which nothing asks to be loaded at once. *)
Inductive part_of : pser -> pser -> Prop :=
| part_refl p : part_of p p
| part_list p x l : In x l -> part_of p x -> part_of p (PList l)
| part_dict p k v d : In (k, v) d -> part_of p v -> part_of p (PDict d).
Definition no_preload (p : pser) : Prop :=
  forall d, part_of (PDict d) p -> ~ In (AStr ($"preload"), PAtom (ABool true)) d.

(** A context in the sub directory [comps] of a mount with directory [dir] on which only unattended calls have been made. *)
Definition context_at (E : senv) (w : world) (cx : ctx) (dir : str) (comps : list str) : Prop :=
  exists m, nth_error (w_mounts w) (c_mnt cx) = Some m /\ reachable (s_cwd E) (s_retouch E) dir m /\
    c_sub cx = join_sep comps /\ Forall plain comps.

(** The serialized form of a record with target path [s] and type [ty]. *)
Definition record_form (s : str) (ty : option str) : pser :=
  PDict [(AStr SER_TYPE, PAtom (AStr ($"_ser__record")));
         (AStr SER_CONTENT, PDict [(AStr ($"target"), PAtom (AStr s));
                                   (AStr ($"sto_type"), match ty with Some t => PAtom (AStr t) | None => PAtom ANone end)])].
(** The same with preload set. *)
Definition preload_form (s : str) (ty : option str) : pser :=
  PDict [(AStr SER_TYPE, PAtom (AStr ($"_ser__record")));
         (AStr SER_CONTENT, PDict [(AStr ($"target"), PAtom (AStr s));
                                   (AStr ($"sto_type"), match ty with Some t => PAtom (AStr t) | None => PAtom ANone end);
                                   (AStr ($"preload"), PAtom (ABool true))])].
