(** Models that are partly in memory and partly still in the files they were loaded from: the vocabulary of saving
    a loaded model again. *)
From Coq Require Import List Ascii String Bool Arith ZArith.
From Verif Require Import Base PosixModel FsModel PathModel SerialModel StoreModel PathSpec MountSpec DirSpec StoreSpec RoundSpec.
Import ListNotations.

(** A value without records that wait for their first access and without markers. *)
Inductive in_memory : obj -> Prop :=
| im_atom a : in_memory (OAtom a)
| im_list l : (forall x, In x l -> in_memory x) -> in_memory (OList l)
| im_dict d : (forall k x, In (k, x) d -> in_memory x) -> in_memory (ODict d)
| im_leaf c d : in_memory (OLeaf c d)
| im_model c fs u : (forall k x, In (k, x) fs -> in_memory x) -> in_memory (OModel c fs u)
| im_seq q s u : (forall x, In x s -> in_memory x) -> in_memory (OSeq q s u)
| im_map p s u : (forall k x, In (k, x) s -> in_memory x) -> in_memory (OMap p s u)
| im_rec c t pre we re : in_memory c -> in_memory (ORec c t pre we re).

(** The default values of the fields of modelclasses are such values; what [__read__] returns depends on the file only. *)
Definition plain_defaults (E : senv) : Prop :=
  forall c fds f v, k_kind (s_class E c) = SModel fds -> In f fds -> mf_default f = Some v -> in_memory v.
Definition reads_determined (E : senv) : Prop := forall c k k' x, s_read E c k x = s_read E c k' x.

(** A model in a program that loaded (parts of) it from the directory [dir]: contents in memory, or records that still
    wait in the sub directory they were found in.  [comps] is the sub directory the model is going to be saved in.
    [UM] and [UC] say which lists of deleted items of models and of lists and dicts may wait, in which sub directory, for
    the next save to remove their files. *)
Inductive holds_two (UM UC : list str -> list obj -> Prop) (E : senv) (w : world) (dir : str) : list str -> obj -> Prop :=
| h_atom comps a : holds_two UM UC E w dir comps (OAtom a)
| h_list comps l : (forall x, In x l -> holds_two UM UC E w dir comps x) -> holds_two UM UC E w dir comps (OList l)
| h_dict comps d : (forall k x, In (k, x) d -> (exists s, k = AStr s /\ s <> SER_TYPE) /\ holds_two UM UC E w dir comps x) -> NoDup (map fst d) ->
    holds_two UM UC E w dir comps (ODict d)
| h_leaf comps c d j ext ty : k_kind (s_class E c) = SLeaf j ext -> k_sto (s_class E c) = Some ty -> holds_two UM UC E w dir comps (OLeaf c d)
| h_model comps c fs u fds : k_kind (s_class E c) = SModel fds -> NoDup (map mf_name fds) -> UM comps u ->
    (forall f v, In f fds -> mf_noser f = false -> assoc (mf_name f) fs = Some v ->
       holds_two UM UC E w dir comps v /\ (v = OAtom ANone -> mf_default f = None \/ mf_default f = Some (OAtom ANone))) ->
    holds_two UM UC E w dir comps (OModel c fs u)
| h_seq comps q s u : UC comps u -> (forall x, In x s -> holds_two UM UC E w dir comps x) -> holds_two UM UC E w dir comps (OSeq q s u)
| h_map comps p s u : UC comps u -> (forall k x, In (k, x) s -> holds_two UM UC E w dir comps x) -> NoDup (map fst s) -> holds_two UM UC E w dir comps (OMap p s u)
| h_rec comps content t pre :
    (forall sd, t_subdir t = Some sd \/ t_subdir t = None /\ sd = [] ->
       holds_two UM UC E w dir (comps ++ filter named_component (components sd)) content) ->
    ordinary E content t -> holds_two UM UC E w dir comps (ORec content t pre None None)
| h_waiting comps ty path cx t pre : fspath (from_path path) = Ok path -> context_at E w cx dir comps ->
    holds_two UM UC E w dir comps (ORec (OUnloaded (Some ty) (from_path path) (join2 dir (join_sep comps)) cx) t pre None None).
Notation holds_with U := (holds_two U U).
(** Nothing was deleted since the last save; or anything may have been. *)
Definition holds : senv -> world -> str -> list str -> obj -> Prop := holds_with (fun _ u => u = []).
Definition holds_pending : senv -> world -> str -> list str -> obj -> Prop := holds_with (fun _ _ => True).

(** [deleted_with R comps o q]: somewhere in [o], which belongs to the sub directory [comps], a list of deleted items
    waits that [R] relates to the file [q]. *)
Definition sub_of (t : target) : list str := filter named_component (components (match t_subdir t with Some sd => sd | None => [] end)).
Inductive deleted_with (R : list str -> list obj -> list str -> Prop) (E : senv) : list str -> obj -> list str -> Prop :=
| del_list comps l x q : In x l -> deleted_with R E comps x q -> deleted_with R E comps (OList l) q
| del_dict comps d k x q : In (k, x) d -> deleted_with R E comps x q -> deleted_with R E comps (ODict d) q
| del_in_field comps c fs u fds f v q : k_kind (s_class E c) = SModel fds -> In f fds -> mf_noser f = false -> assoc (mf_name f) fs = Some v ->
    deleted_with R E comps v q -> deleted_with R E comps (OModel c fs u) q
| del_in_item comps q0 s u x q : In x s -> deleted_with R E comps x q -> deleted_with R E comps (OSeq q0 s u) q
| del_in_value comps p s u k x q : In (k, x) s -> deleted_with R E comps x q -> deleted_with R E comps (OMap p s u) q
| del_in_record comps content t pre we re q : deleted_with R E (comps ++ sub_of t) content q -> deleted_with R E comps (ORec content t pre we re) q
| del_field comps c fs u q : R comps u q -> deleted_with R E comps (OModel c fs u) q
| del_item comps p s u q : R comps u q -> deleted_with R E comps (OSeq p s u) q
| del_value comps p s u q : R comps u q -> deleted_with R E comps (OMap p s u) q.
(** The file of a deleted record. *)
Definition dropped_record (comps : list str) (u : list obj) (q : list str) : Prop :=
  exists content t pre we re cs, In (ORec content t pre we re) u /\ (forall m, content <> OMark m) /\ places t cs /\ q = comps ++ cs.
Definition deleted : senv -> list str -> obj -> list str -> Prop := deleted_with dropped_record.

(** [files_of comps x q]: [q] is the file of a record in [x] that is in memory, [x] being in the sub directory [comps]. *)
Inductive files_of (E : senv) : list str -> obj -> list str -> Prop :=
| fo_list comps l x q : In x l -> files_of E comps x q -> files_of E comps (OList l) q
| fo_dict comps d k x q : In (k, x) d -> files_of E comps x q -> files_of E comps (ODict d) q
| fo_field comps c fs u fds f v q : k_kind (s_class E c) = SModel fds -> In f fds -> mf_noser f = false -> assoc (mf_name f) fs = Some v ->
    files_of E comps v q -> files_of E comps (OModel c fs u) q
| fo_item comps p s u x q : In x s -> files_of E comps x q -> files_of E comps (OSeq p s u) q
| fo_value comps p s u k x q : In (k, x) s -> files_of E comps x q -> files_of E comps (OMap p s u) q
| fo_record comps content t pre we re cs : places t cs -> files_of E comps (ORec content t pre we re) (comps ++ cs)
| fo_content comps content t pre we re q : files_of E (comps ++ sub_of t) content q -> files_of E comps (ORec content t pre we re) q.
(** A deleted item that is in memory: its records have been stored, so that they have complete targets; a record that
    waits for its first access holds a storable that is no container. *)
Inductive at_rest (E : senv) : obj -> Prop :=
| st_atom a : at_rest E (OAtom a)
| st_list l : (forall x, In x l -> at_rest E x) -> at_rest E (OList l)
| st_dict d : (forall k x, In (k, x) d -> at_rest E x) -> at_rest E (ODict d)
| st_leaf c d : at_rest E (OLeaf c d)
| st_model c fs fds : k_kind (s_class E c) = SModel fds -> NoDup (map mf_name fds) ->
    (forall f v, In f fds -> mf_noser f = false -> assoc (mf_name f) fs = Some v -> at_rest E v) -> at_rest E (OModel c fs [])
| st_seq p s u : (forall x, In x s -> at_rest E x) -> at_rest E (OSeq p s u)
| st_map p s u : (forall k x, In (k, x) s -> at_rest E x) -> at_rest E (OMap p s u)
| st_rec content t pre we re cs : at_rest E content -> places t cs -> at_rest E (ORec content t pre we re)
| st_waiting ty tt b cx c t pre we re cs : sto_ty E ty = Some (STLeaf c) -> places t cs -> at_rest E (ORec (OUnloaded (Some ty) tt b cx) t pre we re).
Definition discarded : senv -> list str -> obj -> list str -> Prop := fun E => deleted_with (fun comps u q => exists x, In x u /\ files_of E comps x q) E.
Definition holds_settled : senv -> world -> str -> list str -> obj -> Prop := fun E => holds_with (fun _ u => Forall (at_rest E) u) E.

(** A key without a directory of its own has its .gitignore among its files. *)
Definition own_ignore (E : senv) (p : opts) (k : str) (l : loc) : Prop :=
  o_gitignore p = true /\ o_cluster p = false /\ l = location (s_cwd E) (key_dir p k) ++ [$".gitignore"].
(** What happened between two points of a run. *)
Definition happened (w w' : world) (ev : event) : Prop := exists evs, w_log w' = evs ++ w_log w /\ In ev evs.

(** Between the points [w] and [w'] no file is removed that was written since [w], nor the file [kf], which is still
    going to be written.  Paths of removals are relative to [dir]. *)
Definition spares_new (E : senv) (dir : str) (kf : loc) (w w' : world) : Prop :=
  forall a j p b, w_log w' = a ++ EvRemove j p :: b ++ w_log w ->
    requested (s_cwd E) dir p <> kf /\ ~ In (EvWrite (requested (s_cwd E) dir p)) b.
