(** More about closing a mount and about removed targets: C11, C16. *)
From Coq Require Import List Ascii String Bool Arith Lia.
From Verif Require Import Base PosixModel FsModel PathModel PathSpec MountSpec DirSpec PosixProof FsProof TargetProof MountProof HistoryProof DirProof PathFacts.
Import ListNotations.

(** The .gitignore in directory [d] lists exactly the lines [P], once each; no file stands for the list
    that has only .gitignore itself. *)
Definition lists (cwd : str) (fs : node) (d : str) (P : str -> Prop) : Prop :=
  match file_at fs (requested cwd d ($".gitignore")) with
  | None => forall p, P p -> p = $".gitignore"
  | Some (Text s) => (forall p, In p (splitlines s) <-> P p) /\ NoDup (splitlines s)
  | Some (Json _) => False
  end.
(** A line of the old .gitignore in [d] that is not that of a removed target which is gone from disk. *)
Definition kept_line (cwd : str) (fs fs' : node) (d : str) (removed : list target) (p : str) : Prop :=
  (exists s, file_at fs (requested cwd d ($".gitignore")) = Some (Text s) /\ In p (splitlines s)) /\
  ~ ((exists t q, In t removed /\ fspath t = Ok q /\ normpath q = p) /\ exists_at fs' (requested cwd d p) = false).

(** ** C16 *)
(** Closing a mount: the directory is pruned; without gitignore, or when no touched target is on disk,
    that is all.  Otherwise the .gitignore of the mount directory lists the touched targets that are on
    disk, itself and the old lines that are not those of removed files; for a cluster the .gitignore
    next to the mount directory lists the name of that directory instead. *)
Theorem C16_close : forall cwd fs m fs', absolute cwd -> well_formed fs -> mount_close cwd fs m = Ok fs' ->
  let fs1 := prune_directories fs (location cwd (m_dir m)) in
  let listed p := exists t, In t (m_touched m) /\ fspath t = Ok p /\ exists_at fs1 (requested cwd (m_dir m) p) = true in
  (m_gitignore m = false \/ (forall p, ~ listed p) -> fs' = fs1) /\
  (m_gitignore m = true -> (exists p, listed p) ->
     (m_cluster m = false -> (forall p, listed p -> one_line p) ->
        lists cwd fs' (m_dir m) (fun p => p = $".gitignore" \/ listed p \/ kept_line cwd fs fs1 (m_dir m) (m_removed m) p)) /\
     (m_cluster m = true -> forall d n, path_split (m_dir m) = (d, n) -> one_line n ->
        lists cwd fs' d (fun p => p = $".gitignore" \/ p = n \/ kept_line cwd fs fs1 d (m_removed m) p))).
Proof.
  intros cwd fs m fs' Hc Hw H fs1 listed. unfold mount_close in H. rewrite os_loc_location in H by assumption. fold fs1 in H.
  assert (F : forall q, file_at fs1 q = file_at fs q) by (intro q; apply prune_directories_file_at; assumption).
  match type of H with context[flat_map ?f ?l] => set (ig := flat_map f l) in *; assert (Hig : forall p, In p ig <-> listed p) end.
  { intro p. unfold ig, listed. rewrite in_flat_map. split.
    - intros (t & Ht & Hp). exists t. split; [assumption|]. destruct (fspath t) as [q|]; [|destruct Hp].
      rewrite requested_os in Hp by assumption. destruct (exists_at fs1 (requested cwd (m_dir m) q)) eqn:Ee; [|destruct Hp].
      destruct Hp as [<-|[]]. auto.
    - intros (t & Ht & Hf & He). exists t. split; [assumption|]. rewrite Hf, requested_os, He by assumption. left; reflexivity. }
  assert (L : forall d ign, Forall one_line ign -> gitignore cwd fs1 d ign (m_removed m) = Ok fs' ->
     lists cwd fs' d (fun p => p = $".gitignore" \/ In p ign \/ kept_line cwd fs fs1 d (m_removed m) p)).
  { intros d ign Ho Hg. destruct (gitignore_ok cwd fs1 d ign (m_removed m) fs' Hc Ho Hg) as (_ & _ & [(H5 & H4 & H6)|(_ & s & H4 & H5 & _)]);
      unfold lists; rewrite H4.
    - intros p Hp. apply H5. unfold gi_line. unfold kept_line in Hp. rewrite F. exact Hp.
    - rewrite H5. split; [|apply (gi_entries_props cwd fs1 d ign (m_removed m) Ho)].
      intro p. rewrite gi_entries_In by assumption. unfold gi_line, kept_line. rewrite F. reflexivity. }
  split.
  - intros [Hg|Hn].
    + rewrite Hg in H. cbn in H. congruence.
    + destruct ig as [|x l]; [destruct (negb _) in H; congruence|]. exfalso. apply (Hn x). apply Hig. left; reflexivity.
  - intros Hg (p0 & Hp0). rewrite Hg in H. cbn [negb] in H. apply Hig in Hp0. destruct ig as [|x l] eqn:Ei; [destruct Hp0|]. rewrite <- Ei in *. clear Ei Hp0.
    split.
    + intros Hcl Ho. rewrite Hcl in H. apply L in H.
      * unfold lists in *. destruct (file_at fs' _) as [[s|]|]; [|assumption|].
        -- destruct H as (H & N). split; [|assumption]. intro p. rewrite H, Hig. reflexivity.
        -- intros p Hp. apply H. rewrite Hig. exact Hp.
      * apply Forall_forall. intros p Hp. apply Ho, Hig, Hp.
    + intros Hcl d n Hs Ho. rewrite Hcl, Hs in H. apply L in H; [|constructor; [assumption|constructor]].
      unfold lists in *. destruct (file_at fs' _) as [[s|]|]; [|assumption|].
      * destruct H as (H & N). split; [|assumption]. intro p. rewrite H. cbn. intuition congruence.
      * intros p Hp. apply H. cbn. intuition congruence.
Qed.
Print Assumptions C16_close.
Definition ex_close : mount := mkMount ($"/w/m") false true [from_path ($"a"); from_path ($"lost")] [from_path ($"gone"); from_path ($"back")].
Definition ex_tree : node := Dir [($"w", Dir [($"m", Dir [($"a", File (Text [])); ($"back", File (Text [])); ($"e", Dir []);
  ($".gitignore", File (Text (join_lines [$"back"; $"gone"; $"mine"])))])])].
Example C16_close_example : exists fs', mount_close ($"/") ex_tree ex_close = Ok fs' /\ well_formed ex_tree /\
  file_at fs' [$"w"; $"m"; $".gitignore"] = Some (Text (join_lines [$".gitignore"; $"a"; $"back"; $"mine"])).
Proof.
  eexists. split; [vm_compute; reflexivity|]. split; [|vm_compute; reflexivity].
  repeat (split || constructor); cbn; intuition discriminate.
Qed.
Example C16_cluster_example : exists fs', mount_close ($"/") ex_tree (mkMount ($"/w/m") true true [from_path ($"a")] []) = Ok fs' /\
  file_at fs' [$"w"; $".gitignore"] = Some (Text (join_lines [$".gitignore"; $"m"])).
Proof. eexists. split; vm_compute; reflexivity. Qed.

(** ** C11 *)
(** Removing a registered target puts it on the list of removed targets, which decides about its line in
    .gitignore on close; nothing else changes that list. *)
Theorem C11_removed_is_recorded : forall cwd conf dir m fs path fs' m',
  absolute cwd -> absolute dir -> reachable cwd conf dir m ->
  mount_remove cwd fs m path true = (Ok tt, (fs', m')) ->
  (m_cluster m' = m_cluster m /\ m_gitignore m' = m_gitignore m /\ m_dir m' = m_dir m) /\
  ((exists u, In u (m_touched m) /\ place cwd dir u = Some (requested cwd dir path)) ->
     exists t, place cwd dir t = Some (requested cwd dir path) /\ m_removed m' = m_removed m ++ [t]) /\
  ((forall u, In u (m_touched m) -> place cwd dir u <> Some (requested cwd dir path)) -> m' = m).
Proof.
  intros cwd conf dir m fs path fs' m' Hc Hd Hr H.
  destruct (reachable_ok _ _ _ _ Hc Hd Hr) as [Hm Hk]. subst dir.
  destruct (mount_remove_cases cwd fs m path true _ fs' m' Hc H) as [(e & _ & H1 & _)|[(_ & H1 & _)|(H1 & _)]]; try discriminate.
  destruct (untrack_spec cwd m path Hc Hd Hk) as [[E _]|(t & rest & m1 & Hn & Hrel & Hreq & E & Hdir & Hk1 & Hnt & Hiff)];
    [congruence|].
  assert (m1 = m') by congruence. subst m1. unfold untrack in E. rewrite Hn in E.
  assert (Pt : place cwd (m_dir m) t = Some (requested cwd (m_dir m) path)) by (rewrite (place_rel cwd (m_dir m) t rest) by assumption; congruence).
  destruct (remove_first t (m_touched m)) as [l|] eqn:Er; inversion E; subst m'; cbn.
  - split; [auto|]. split.
    + intros _. exists t. auto.
    + intro Hno. exfalso. apply remove_first_spec in Er as (la & u & lb & El & _ & Hkey & _).
      assert (Hu : In u (m_touched m)) by (rewrite El; apply in_or_app; right; left; reflexivity). apply (Hno u Hu).
      destruct Hk as [Hf _]. rewrite Forall_forall in Hf. destruct (Hf u Hu) as [ru Hru].
      apply (rel_target_key_inj u ru t rest) in Hkey; [|assumption|assumption]. subst ru.
      rewrite (place_rel cwd (m_dir m) u rest) by assumption. congruence.
  - split; [auto|]. split; [|reflexivity].
    intros (u & Hu & Pu). exfalso. apply remove_first_None in Er. unfold in_touched in Er.
    assert (existsb (teq t) (m_touched m) = true); [|congruence]. apply existsb_exists. exists u. split; [assumption|].
    destruct Hk as [Hf _]. rewrite Forall_forall in Hf. destruct (Hf u Hu) as [ru Hru].
    rewrite (place_rel cwd (m_dir m) u ru) in Pu by assumption. rewrite Hreq in Pu. inversion Pu as [U4]. apply app_inv_head in U4. subst ru.
    apply teq_iff. apply (rel_target_key_inj t rest u rest); auto.
Qed.
Print Assumptions C11_removed_is_recorded.
