(** Where save, load and store change files: C49, C50. *)
From Coq Require Import List Ascii String Bool Arith ZArith Lia.
From Verif Require Import Base PosixModel FsModel PathModel SerialModel StoreModel StoreFrame StoreMount StoreSpec StoreLocal StoreEvents
     StoreExample PathSpec MountSpec DirSpec PosixProof FsProof DirProof TargetProof MountProof HistoryProof PathFacts.
Import ListNotations.

(** ** C49 *)
(** Whatever object is saved, and however the call ends (normally, with an exception, or with the death of the
    process at some file operation), only files in the directory of the key and the .gitignore next to that
    directory can have changed. *)
Theorem C49_save_changes_only_its_directory : forall E n p k o w r w',
  absolute (s_cwd E) -> absolute (o_base p) -> In (s_retouch E) unattended -> well_formed (w_fs w) ->
  save E n p k o w = (r, w') ->
  let dir := key_dir p k in
  forall q, ~ inside q (location (s_cwd E) dir) -> q <> location (s_cwd E) (fst (path_split dir)) ++ [$".gitignore"] ->
  file_at (w_fs w') q = file_at (w_fs w) q.
Proof.
  intros E n p k o w r w' Hc Hb Hp Hw H dir q H1 H2. eapply save_only; try eassumption. intros [Hm|Hm]; auto.
Qed.
(** Loading changes no other file either. *)
Theorem C49_load_changes_only_its_directory : forall E n p k d df w r w',
  absolute (s_cwd E) -> absolute (o_base p) -> In (s_retouch E) unattended -> well_formed (w_fs w) ->
  load E n p k d df w = (r, w') ->
  let dir := key_dir p k in
  forall q, ~ inside q (location (s_cwd E) dir) -> q <> location (s_cwd E) (fst (path_split dir)) ++ [$".gitignore"] ->
  file_at (w_fs w') q = file_at (w_fs w) q.
Proof.
  intros E n p k d df w r w' Hc Hb Hp Hw H dir q H1 H2. eapply load_only; try eassumption. intros [Hm|Hm]; auto.
Qed.
(** The directory of a clustered key. *)
Lemma key_location E p k : plain k -> o_cluster p = true ->
  exists up, location (s_cwd E) (key_dir p k) = up ++ [k] /\ forall k', plain k' -> location (s_cwd E) (key_dir p k') = up ++ [k'].
Proof.
  intros Hk Hc. unfold key_dir. rewrite Hc.
  exists (location (s_cwd E) (mount_dir (o_base p) (o_generator p) (o_subdir p) k false)).
  split; [apply mount_dir_key; apply plain_clean; assumption|].
  intros k' Hk'. rewrite mount_dir_key by (apply plain_clean; assumption). reflexivity.
Qed.
(** The directory around it: where its last component is taken off. *)
Lemma last_sep_join2 b y : snd (split_last_sep (join2 b y)) = snd (split_last_sep y).
Proof.
  pose proof (split_last_sep_app y) as H1. pose proof (split_last_sep_tail y) as H2. pose proof (split_last_sep_head y) as H3.
  destruct (split_last_sep y) as [h t]. cbn [fst snd] in *. subst y.
  unfold join2. destruct (isabs (h ++ t)); [rewrite split_last_sep_uniq by assumption; reflexivity|].
  destruct b as [|c b]; [rewrite split_last_sep_uniq by assumption; reflexivity|].
  assert (G : forall l c s, ends_sep (l ++ c :: s) = ends_sep (c :: s)).
  { intros l x s. induction l as [|a l IH]; [reflexivity|]. cbn. destruct (l ++ x :: s) eqn:El; [destruct l; discriminate|]. exact IH. }
  destruct (ends_sep (c :: b)) eqn:Ee.
  - rewrite app_assoc. rewrite split_last_sep_uniq; [reflexivity|assumption|right].
    destruct h as [|x h]; [rewrite app_nil_r; assumption|]. rewrite G. destruct H3; [discriminate|assumption].
  - change (sep :: h ++ t) with ([sep] ++ h ++ t). rewrite !app_assoc. rewrite split_last_sep_uniq; [reflexivity|assumption|right].
    destruct h as [|x h]; [rewrite app_nil_r; rewrite G; reflexivity|]. rewrite G. destruct H3; [discriminate|assumption].
Qed.
Lemma location_parent cwd d k : clean k -> snd (split_last_sep d) = k ->
  location cwd d = location cwd (fst (path_split d)) ++ [k].
Proof.
  intros Hk Hs. pose proof (split_last_sep_app d) as Ha. pose proof (split_last_sep_head d) as Hh. unfold path_split.
  destruct (split_last_sep d) as [h t]. cbn [fst snd] in *. subst t d.
  assert (Hhd : location cwd (h ++ k) = location cwd h ++ [k]).
  { pose proof Hk as (K1 & K2 & K3 & K4). rewrite <- location_snoc by assumption. f_equal. unfold join2. rewrite noslash_not_isabs by assumption.
    destruct Hh as [->|Hh]; [reflexivity|]. destruct h; [reflexivity|]. rewrite Hh. reflexivity. }
  rewrite Hhd. f_equal. destruct (all_sep h) eqn:Eall; cbn [fst]; [reflexivity|].
  destruct (rstrip_sep_app h) as [j Hr]. rewrite Hr at 1. rewrite !location_eq.
  assert (Hne : rstrip_sep h <> []) by (intros Hx; apply rstrip_sep_nil in Hx; congruence).
  assert (Hi : isabs (rstrip_sep h ++ repeat sep j) = isabs (rstrip_sep h)) by (destruct (rstrip_sep h); [congruence|reflexivity]).
  rewrite Hi. assert (Hw : forall here, walk here (split_sep (rstrip_sep h ++ repeat sep j)) = walk here (split_sep (rstrip_sep h))).
  { intros here. clear. induction j as [|j IH]; [rewrite app_nil_r; reflexivity|].
    replace (rstrip_sep h ++ repeat sep (S j)) with ((rstrip_sep h ++ repeat sep j) ++ sep :: []).
    - rewrite split_app. cbn [split_sep]. rewrite walk_app. rewrite IH. reflexivity.
    - rewrite <- app_assoc. f_equal. change (sep :: []) with (repeat sep 1). rewrite <- repeat_app. rewrite Nat.add_1_r. reflexivity. }
  rewrite !Hw. reflexivity.
Qed.
Lemma key_parent E p k : plain k -> o_cluster p = true ->
  location (s_cwd E) (key_dir p k) = location (s_cwd E) (fst (path_split (key_dir p k))) ++ [k].
Proof.
  intros Hk Hc. apply plain_clean in Hk. apply location_parent; [assumption|].
  unfold key_dir. rewrite Hc. unfold mount_dir, joinN. cbn [fold_left]. rewrite last_sep_join2. apply split_last_sep_join. apply Hk.
Qed.
(** What was saved under another key stays as it was. *)
Theorem C49_other_keys_unaffected : forall E n p k k' o w r w',
  absolute (s_cwd E) -> absolute (o_base p) -> In (s_retouch E) unattended -> well_formed (w_fs w) ->
  o_cluster p = true -> plain k -> plain k' -> k <> k' -> k' <> $".gitignore" ->
  save E n p k o w = (r, w') ->
  forall q, inside q (location (s_cwd E) (key_dir p k')) -> file_at (w_fs w') q = file_at (w_fs w) q.
Proof.
  intros E n p k k' o w r w' Hc Hb Hp Hw Hcl Hk Hk' Hne Hgi H q Hq.
  pose proof (key_parent E p k Hk Hcl) as H2. destruct (key_location E p k Hk Hcl) as (up & H1 & H4).
  rewrite H1 in H2. apply app_inj_tail in H2 as [H2 _].
  destruct Hq as [rest Hq]. rewrite (H4 k' Hk') in Hq.
  eapply C49_save_changes_only_its_directory; try eassumption; cbn zeta.
  - rewrite H1, Hq. intros [rest' Hr]. rewrite <- !app_assoc in Hr. apply app_inv_head in Hr. cbn in Hr. congruence.
  - rewrite <- H2, Hq. intros Hr. rewrite <- app_assoc in Hr. apply app_inv_head in Hr. injection Hr as Hr _. apply Hgi. exact Hr.
Qed.
Example C49_example :
  let E := ex_env "auto" false None in
  let w' := snd (save E 20 ex_opts ($"new") ex_model ex_world) in
  absolute (s_cwd E) /\ absolute (o_base ex_opts) /\ In (s_retouch E) unattended /\ well_formed (w_fs ex_world) /\
  plain ($"new") /\ plain ($"old") /\
  is_dir (w_fs w') (location (s_cwd E) (key_dir ex_opts ($"new"))) = true /\
  file_at (w_fs w') [$"proj"; $".dman"; $"gen"; $"new"; $"x0.bin"] = Some (Text ($"two")) /\
  file_at (w_fs w') [$"proj"; $".dman"; $"gen"; $"old"; $"old.json"] = Some (Json (JInt 1)) /\
  file_at (w_fs w') [$"proj"; $".dman"; $"gen"; $".gitignore"] <> None.
Proof.
  cbn zeta. split; [eexists; reflexivity|]. split; [eexists; reflexivity|]. split; [left; reflexivity|].
  split; [cbn; repeat constructor; cbn; tauto|].
  split; [repeat split; try discriminate; cbn; intros H; repeat destruct H as [H|H]; try discriminate; assumption|].
  split; [repeat split; try discriminate; cbn; intros H; repeat destruct H as [H|H]; try discriminate; assumption|].
  split; [vm_compute; reflexivity|]. split; [vm_compute; reflexivity|]. split; [vm_compute; reflexivity|]. vm_compute. discriminate.
Qed.

(** ** C50 *)
(** A save that dies at any file operation, or ends in any other way: a file none of whose writes, removals or
    .gitignore updates is among the operations made so far is intact. *)
Theorem C50_untouched_files_intact : forall E n p k o w r w',
  absolute (s_cwd E) -> well_formed (w_fs w) -> save E n p k o w = (r, w') ->
  exists evs, w_log w' = evs ++ w_log w /\ same_files (fun q => ~ hit E w' evs q) w w'.
Proof.
  intros E n p k o w r w' Hc Hw H. pose proof (save_traced E Hc n p k o w Hw) as (new & H1 & _ & _ & H2).
  rewrite H in H1, H2. cbn [snd] in H1, H2. eauto.
Qed.
Theorem C50_store_untouched_files_intact : forall E n p k o w r w',
  absolute (s_cwd E) -> well_formed (w_fs w) -> store E n p k o w = (r, w') ->
  exists evs, w_log w' = evs ++ w_log w /\ same_files (fun q => ~ hit E w' evs q) w w'.
Proof.
  intros E n p k o w r w' Hc Hw H. pose proof (store_traced E Hc n p k o w Hw) as (new & H1 & _ & _ & H2).
  rewrite H in H1, H2. cbn [snd] in H1, H2. eauto.
Qed.
(** The save of [ex_model] dies at its eleventh file operation, after changes: the earlier data is there, the
    operations made are the log. *)
Example C50_example :
  let E := ex_env "auto" false (Some 10) in
  absolute (s_cwd E) /\ well_formed (w_fs ex_world) /\
  fst (save E 20 ex_opts ($"new") ex_model ex_world) = Exn Crash /\
  List.length (w_log (snd (save E 20 ex_opts ($"new") ex_model ex_world))) = 10 /\
  file_at (w_fs (snd (save E 20 ex_opts ($"new") ex_model ex_world))) [$"proj"; $".dman"; $"gen"; $"new"; $"x.bin"] = Some (Text ($"one")) /\
  In (EvWrite [$"proj"; $".dman"; $"gen"; $"new"; $"x.bin"]) (w_log (snd (save E 20 ex_opts ($"new") ex_model ex_world))).
Proof.
  cbn zeta. split; [eexists; reflexivity|]. split; [cbn; repeat constructor; cbn; tauto|].
  split; [vm_compute; reflexivity|]. split; [vm_compute; reflexivity|]. split; [vm_compute; reflexivity|].
  vm_compute. repeat (first [left; reflexivity|right]).
Qed.
(** The contents of the records of a list. *)
Definition contents (E : senv) (n : nat) (o : obj) : M (list obj) :=
  match o with
  | OSeq _ s _ | OList s => mapM (fun r => x <- content_of E n r;; ret (fst x)) s
  | _ => raise TypeError
  end.
(** In general neither the old nor the new state can be loaded after a crash: a list of two records is saved
    with new contents, the process dies between the two files, and loading gives one new and one old content. *)
Definition two_records (s : string) : obj := OList [rec_of (blob s) "x"; rec_of (blob s) "y"].
Theorem C50_not_atomic_refuted : exists w limit,
  let w0 := snd (save (ex_env "auto" false None) 20 ex_opts ($"k") (two_records "old") ex_world) in
  let w1 := snd (save (ex_env "auto" false (Some limit)) 20 ex_opts ($"k") (two_records "new") w0) in
  w = w1 /\
  fst ((o <- load (ex_env "auto" false None) 20 ex_opts ($"k") None None;; contents (ex_env "auto" false None) 20 o) w0)
    = Ok [blob "old"; blob "old"] /\
  fst (save (ex_env "auto" false (Some limit)) 20 ex_opts ($"k") (two_records "new") w0) = Exn Crash /\
  fst ((o <- load (ex_env "auto" false None) 20 ex_opts ($"k") None None;; contents (ex_env "auto" false None) 20 o) w1)
    = Ok [blob "new"; blob "old"].
Proof.
  exists (snd (save (ex_env "auto" false (Some 12)) 20 ex_opts ($"k") (two_records "new")
            (snd (save (ex_env "auto" false None) 20 ex_opts ($"k") (two_records "old") ex_world)))).
  exists 12. cbn zeta. split; [reflexivity|]. split; [vm_compute; reflexivity|]. split; vm_compute; reflexivity.
Qed.

Print Assumptions C49_save_changes_only_its_directory.
Print Assumptions C49_load_changes_only_its_directory.
Print Assumptions C49_other_keys_unaffected.
Print Assumptions C50_untouched_files_intact.
Print Assumptions C50_store_untouched_files_intact.
Print Assumptions C50_not_atomic_refuted.
