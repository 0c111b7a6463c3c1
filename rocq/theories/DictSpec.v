(** The keys of a repository as the keys of a dictionary: what a history of calls by any number of runs of one program
    should leave under each key. *)
From Coq Require Import List Ascii String Bool Arith ZArith.
From Verif Require Import Base PosixModel FsModel PathModel SerialModel StoreModel PathSpec MountSpec DirSpec StoreSpec RoundSpec KeepSpec.
Import ListNotations.

(** What the program knows of a key, if anything: it holds a model that looks like [t], or it holds nothing. *)
Inductive entry := Holds (t : tree) | Absent.
Definition dict := str -> option entry.
Definition put (k : str) (x : entry) (d : dict) : dict := fun k' => if str_eq_dec k' k then Some x else d k'.
Definition forget (k : str) (d : dict) : dict := fun k' => if str_eq_dec k' k then None else d k'.

(** Keys: one ordinary name, in one line. *)
Definition ordinary_key (k : str) : Prop := plain k /\ k <> $".gitignore" /\ one_line k.

(** [E] is a run of the program [E0]; nobody is asked what to do with files that exist.  [run] may die at any file
    operation ([s_limit]). *)
Definition run_of (E0 E : senv) : Prop := same_code E0 E /\ In (s_retouch E) unattended.
(** The runs of which saves are to be relied on. *)
Definition saving_run (E : senv) : Prop :=
  registered_classes E /\ ordinary_uuids E /\ faithful_methods E /\ reads_determined E /\ plain_defaults E /\
  (s_retouch E = $"auto" \/ s_retouch E = $"quit") /\ s_validate E = true.

(** The files of a key, and the .gitignore that lists the keys, in the directory above. *)
Definition key_file (E : senv) (p : opts) (k : str) (l : loc) : Prop := inside l (location (s_cwd E) (key_dir p k)).
Definition keys_ignore (E : senv) (p : opts) (k : str) : loc := removelast (location (s_cwd E) (key_dir p k)) ++ [$".gitignore"].

Definition key_json (E : senv) (p : opts) (k : str) : loc := location (s_cwd E) (key_dir p k) ++ [k ++ $".json"].

(** [history E0 p fs d]: the program [E0] used the repository with the options [p]; the files are now [fs], and [d] is
    what can be relied on.  Each call is made by any run, in any state of it, with the files as they were left. *)
Inductive history (E0 : senv) (p : opts) : node -> dict -> Prop :=
  (** At the beginning there may be files of any kind; the keys without a json file can be known to hold nothing. *)
| d_start fs d : well_formed fs ->
    (forall k x, d k = Some x -> x = Absent /\ ordinary_key k /\ file_at fs (key_json E0 p k) = None) -> history E0 p fs d
  (** [save] returns.  The model may be new, loaded and changed, with items deleted; it looked like [t].  The files its
      records still wait in are not changed by the save (C64); if items were deleted, no removal hits a new file (C40). *)
| d_save d E n K M k o w t wv o' j w' :
    history E0 p (w_fs w) d -> run_of E0 E -> saving_run E -> ordinary_key k ->
    holds E w (key_dir p k) [] o \/
    holds_pending E w (key_dir p k) [] o /\ spares_new E (key_dir p k) (location (s_cwd E) (key_dir p k) ++ [k ++ $".json"]) w w' ->
    view E K M o w = (Ok t, wv) -> save E n p k o w = (Ok (o', j), w') ->
    (forall l, happened w wv (EvRead l) -> file_at (w_fs w') l = file_at (w_fs w) l) ->
    history E0 p (w_fs w') (put k (Holds t) d)
  (** [save], whatever is saved and however it ends: an exception, the death of the process. *)
| d_save_any d E n k o w r w' : history E0 p (w_fs w) d -> run_of E0 E -> ordinary_key k ->
    save E n p k o w = (r, w') -> history E0 p (w_fs w') (forget k d)
| d_store d E n k o w r w' : history E0 p (w_fs w) d -> run_of E0 E -> ordinary_key k ->
    store E n p k o w = (r, w') -> history E0 p (w_fs w') (forget k d)
| d_clean d E n k w r w' : history E0 p (w_fs w) d -> run_of E0 E -> ordinary_key k ->
    repo_clean E n p k w = (r, w') -> history E0 p (w_fs w') (forget k d)
  (** [clean] returns and the json file is gone (when that is: C82_clean_deletes, C51). *)
| d_cleaned d E n k w w' : history E0 p (w_fs w) d -> run_of E0 E -> ordinary_key k ->
    repo_clean E n p k w = (Ok tt, w') -> file_at (w_fs w') (key_json E0 p k) = None -> history E0 p (w_fs w') (put k Absent d)
  (** [load], and any access to what was loaded, here or from elsewhere. *)
| d_load d E n k dv df w r w' : history E0 p (w_fs w) d -> run_of E0 E -> ordinary_key k ->
    load E n p k dv df w = (r, w') -> history E0 p (w_fs w') d
| d_view d E K M o w r w' : history E0 p (w_fs w) d -> run_of E0 E ->
    view E K M o w = (r, w') -> history E0 p (w_fs w') d
  (** Other programs, which leave the files of the known keys and the list of keys alone. *)
| d_elsewhere d fs fs' : history E0 p fs d -> well_formed fs' ->
    (forall k x l, d k = Some x -> key_file E0 p k l \/ l = keys_ignore E0 p k -> file_at fs' l = file_at fs l) ->
    history E0 p fs' d.
