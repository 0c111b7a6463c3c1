(** Properties C01-C19: paths, targets, mounts, directories. *)
From Coq Require Import List Ascii String Bool Arith NArith Lia.
From Verif Require Import Base PosixModel FsModel PathModel PathSpec DirSpec MountSpec
     PosixProof FsProof TargetProof MountProof HistoryProof DirProof PathFacts.
Import ListNotations.

(** A small project used by the examples. *)
Definition ex_fs : node :=
  Dir [($"w", Dir [($".dman", Dir []);
                   ($"secret", File (Text ($"s")));
                   ($"mnt", Dir [($"a.json", File (Text ($"1")));
                                 ($"sub", Dir [($"b.txt", File (Text ($"2"))); ($"empty", Dir [])])])])].
Definition ex_m0 : mount := new_mount ($"/w/mnt") false false.
Definition ex_ops : list mount_op :=
  [OpPrepare ($"sub/../a.json") None; OpPrepare ($"a.json") None; OpPrepare ($"../secret") None; OpRemove ($"a.json")].
Definition ex_m : mount := snd (fst (mount_run ($"/w") ($"auto") (ex_fs, ex_m0) ex_ops)).
Lemma ex_m_reachable : reachable ($"/w") ($"auto") ($"/w/mnt") ex_m.
Proof.
  exists ex_fs, false, false, ex_ops, (fst (fst (mount_run ($"/w") ($"auto") (ex_fs, ex_m0) ex_ops))).
  split; [|reflexivity]. repeat constructor.
Qed.
Lemma abs_intro r : absolute ("/"%char :: r).
Proof. exists r; reflexivity. Qed.

(** ** C01 *)
Theorem C01_prepare_stays_inside : forall cwd conf dir m fs path choice inputs t fs' m' inputs',
  absolute cwd -> absolute dir -> reachable cwd conf dir m -> In (policy conf choice) unattended ->
  prepare cwd conf fs m path true choice inputs = (Ok t, (fs', m', inputs')) ->
  exists l, place cwd dir t = Some l /\ inside l (location cwd dir).
Proof.
  intros cwd conf dir m fs path choice inputs t fs' m' inputs' Hc Hd Hr Hp H.
  destruct (reachable_ok _ _ _ _ Hc Hd Hr) as [Hm Hk]. subst dir.
  destruct (prepare_spec cwd conf fs m path choice inputs Hc Hd Hk Hp) as (r & f & mm & E & P).
  rewrite E in H. inversion H; subst. clear H E.
  inversion P as [| |t0 rest t' rest' touched' r f Hn Hrel Hreq Hrel' Hk' Hrm Hsu Hid Hcase Hres]; subst.
  destruct Hres as [(Ht & _)|(e & He & _)]; [|discriminate]. inversion Ht; subst.
  exists (location cwd (m_dir m) ++ rest'). split; [apply place_rel; assumption|]. eexists; reflexivity.
Qed.
Print Assumptions C01_prepare_stays_inside.

(** Files are not touched; the only new directories are ancestors of the place handed out, whose
    directory exists afterwards. *)
Theorem C01_prepare_frame : forall cwd conf dir m fs path choice inputs t fs' m' inputs',
  absolute cwd -> absolute dir -> reachable cwd conf dir m -> In (policy conf choice) unattended ->
  prepare cwd conf fs m path true choice inputs = (Ok t, (fs', m', inputs')) ->
  inputs' = inputs /\
  exists l, place cwd dir t = Some l /\
    (forall q, file_at fs' q = file_at fs q) /\
    (forall q, is_dir fs' q = true -> is_dir fs q = true \/ inside l q) /\
    (forall q, is_dir fs q = true -> is_dir fs' q = true) /\
    is_dir fs' (removelast l) = true /\ is_dir fs' (location cwd dir) = true.
Proof.
  intros cwd conf dir m fs path choice inputs t fs' m' inputs' Hc Hd Hr Hp H.
  destruct (reachable_ok _ _ _ _ Hc Hd Hr) as [Hm Hk]. subst dir.
  destruct (prepare_spec cwd conf fs m path choice inputs Hc Hd Hk Hp) as (r & f & mm & E & P).
  rewrite E in H. inversion H; subst. clear H E. split; [reflexivity|].
  inversion P as [| |t0 rest t' rest' touched' r f Hn Hrel Hreq Hrel' Hk' Hrm Hsu Hid Hcase Hres]; subst.
  destruct Hres as [(Ht & Hf & Hdr)|(e & He & _)]; [|discriminate]. inversion Ht; subst. clear Ht.
  exists (location cwd (m_dir m) ++ rest'). split; [apply place_rel; assumption|].
  split; [assumption|]. split; [|split; [|split]].
  - intros q Hq. rewrite Hdr in Hq. apply orb_true_iff in Hq as [Hq|Hq]; [left; assumption|right].
    apply is_prefix_iff in Hq as [x Hx]. destruct rest' as [|y rs] eqn:Er.
    + cbn in Hx. exists x. exact Hx.
    + rewrite <- Er in *. assert (rest' <> []) by congruence.
      rewrite (@app_removelast_last _ rest' []) by assumption. exists (x ++ [last rest' []]).
      rewrite app_assoc, Hx, <- app_assoc. reflexivity.
  - intros q Hq. rewrite Hdr, Hq. reflexivity.
  - rewrite Hdr. apply orb_true_iff. right. apply is_prefix_iff.
    destruct rest' as [|y rs] eqn:Er.
    + rewrite app_nil_r. cbn. rewrite app_nil_r.
      destruct (location cwd (m_dir m)) as [|z l] eqn:El; [exists []; reflexivity|]. rewrite <- El.
      exists [last (location cwd (m_dir m)) []]. apply app_removelast_last. rewrite El. discriminate.
    + rewrite removelast_app by discriminate. exists []. rewrite app_nil_r. reflexivity.
  - rewrite Hdr. apply orb_true_iff. right. apply is_prefix_iff. eexists; reflexivity.
Qed.
Print Assumptions C01_prepare_frame.
Example C01_example :
  absolute ($"/w") /\ absolute ($"/w/mnt") /\ reachable ($"/w") ($"auto") ($"/w/mnt") ex_m /\
  In (policy ($"auto") None) unattended /\
  exists t x, prepare ($"/w") ($"auto") ex_fs ex_m ($"new/.././sub//a0.json") true None [] = (Ok t, x) /\
    place ($"/w") ($"/w/mnt") t = Some [$"w"; $"mnt"; $"sub"; $"a0.json"].
Proof.
  split; [apply abs_intro|]. split; [apply abs_intro|]. split; [apply ex_m_reachable|].
  split; [left; reflexivity|]. eexists. eexists. split; [vm_compute; reflexivity|vm_compute; reflexivity].
Qed.

(** ** C02 *)
Theorem C02_accepts_exactly_inside : forall cwd conf dir m fs path choice inputs,
  absolute cwd -> absolute dir -> no_dotdot dir -> reachable cwd conf dir m -> In (policy conf choice) unattended ->
  (fst (prepare cwd conf fs m path true choice inputs) = Exn MountException <->
   ~ inside (requested cwd dir path) (location cwd dir)).
Proof.
  intros cwd conf dir m fs path choice inputs Hc Hd Hn Hr Hp.
  destruct (reachable_ok _ _ _ _ Hc Hd Hr) as [Hm Hk]. subst dir.
  rewrite requested_join2. rewrite <- (normalize_rejects cwd (m_dir m) path Hc Hd Hn).
  destruct (prepare_spec cwd conf fs m path choice inputs Hc Hd Hk Hp) as (r & f & mm & E & P).
  rewrite E. cbn [fst].
  inversion P as [Hx|t rest Hx|t0 rest t' rest' touched' r0 f0 Hx Hrel Hreq Hrel' Hk' Hrm Hsu Hid Hcase Hres]; subst.
  - split; auto.
  - rewrite Hx. split; discriminate.
  - rewrite Hx. split; [|discriminate]. intros H.
    destruct Hres as [(-> & _)|(e & -> & Hi & _)]; [discriminate|]. inversion H; subst.
    destruct Hi as [Hi|[Hi|[]]]; discriminate.
Qed.
Print Assumptions C02_accepts_exactly_inside.

Theorem C02_keeps_location : forall cwd conf dir m fs path choice inputs t s,
  absolute cwd -> absolute dir -> reachable cwd conf dir m -> In (policy conf choice) unattended ->
  (forall u, In u (m_touched m) -> place cwd dir u <> Some (requested cwd dir path)) ->
  prepare cwd conf fs m path true choice inputs = (Ok t, s) ->
  place cwd dir t = Some (requested cwd dir path).
Proof.
  intros cwd conf dir m fs path choice inputs t s Hc Hd Hr Hp Hfree H.
  destruct (reachable_ok _ _ _ _ Hc Hd Hr) as [Hm Hk]. subst dir.
  destruct (prepare_spec cwd conf fs m path choice inputs Hc Hd Hk Hp) as (r & f & mm & E & P).
  rewrite E in H. inversion H; subst. clear H E.
  inversion P as [| |t0 rest t' rest' touched' r f0 Hn Hrel Hreq Hrel' Hk' Hrm Hsu Hid Hcase Hres]; subst.
  destruct Hres as [(Ht & _)|(e & He & _)]; [|discriminate]. inversion Ht; subst. clear Ht.
  assert (Hf : in_touched t0 (m_touched m) = false).
  { apply in_touched_false. intros u Hu Hkey. apply (Hfree u Hu).
    destruct Hk as [Hk1 _]. rewrite Forall_forall in Hk1. destruct (Hk1 u Hu) as [ru Hru].
    rewrite (place_rel cwd (m_dir m) u ru) by assumption. rewrite Hreq. f_equal. f_equal.
    apply (rel_target_key_inj u ru t0 rest); assumption. }
  destruct (Hid Hf) as [-> ->]. rewrite (place_rel cwd (m_dir m) t0 rest) by assumption. congruence.
Qed.
Print Assumptions C02_keeps_location.

(** A mount directory containing '..' accepts nothing. *)
Theorem C02_dotdot_directory_rejects_all : forall cwd conf m fs path choice inputs,
  absolute cwd -> absolute (m_dir m) -> ~ no_dotdot (m_dir m) ->
  prepare cwd conf fs m path true choice inputs = (Exn MountException, (fs, m, inputs)).
Proof.
  intros cwd conf m fs path choice inputs Hc Hd Hn. unfold prepare.
  destruct (normalize_cases cwd (m_dir m) path Hc Hd) as [[t Ht]|Hx].
  - exfalso. apply Hn. intros Hin.
    unfold normalize, mount_abspath in Ht.
    destruct (contains cwd (m_dir m) (join2 (m_dir m) path)) as [[|]|] eqn:E; cbn [bind] in Ht; try discriminate.
    apply contains_true in E as (E & rest & H1 & H2); [|assumption|assumption].
    pose proof (location_clean cwd (m_dir m)) as Hcl. rewrite E in Hcl. rewrite Forall_forall in Hcl.
    assert (Hi : In dotdot (comps_cp (m_dir m))).
    { unfold comps_cp. apply filter_In. split; [rewrite <- components_split; exact Hin|reflexivity]. }
    apply Hcl in Hi. destruct Hi as (_ & _ & Hi & _). congruence.
  - rewrite Hx. reflexivity.
Qed.
Print Assumptions C02_dotdot_directory_rejects_all.
Example C02_example :
  no_dotdot ($"/w/mnt") /\ inside (requested ($"/w") ($"/w/mnt") ($"/w/./mnt/x/../y")) (location ($"/w") ($"/w/mnt"))
  /\ ~ inside (requested ($"/w") ($"/w/mnt") ($"sub/../../mnt2/x")) (location ($"/w") ($"/w/mnt"))
  /\ (forall u, In u (m_touched ex_m) -> place ($"/w") ($"/w/mnt") u <> Some (requested ($"/w") ($"/w/mnt") ($"y")))
  /\ ~ no_dotdot ($"/w/x/../mnt").
Proof.
  split; [vm_compute; intuition discriminate|]. split; [exists [$"y"]; reflexivity|].
  split; [intros [r H]; vm_compute in H; discriminate|]. split.
  - intros u Hu. vm_compute in Hu. destruct Hu as [<-|[]]. vm_compute. discriminate.
  - intros H. apply H. vm_compute. auto.
Qed.

(** ** C03 *)
Theorem C03_rejection_has_no_effect : forall cwd conf m fs path choice inputs fs' m' inputs',
  prepare cwd conf fs m path true choice inputs = (Exn MountException, (fs', m', inputs')) ->
  fs' = fs /\ m' = m /\ inputs' = inputs.
Proof.
  intros cwd conf m fs path choice inputs fs' m' inputs' H. unfold prepare in H.
  destruct (normalize cwd (m_dir m) path true) as [t|e]; [|inversion H; auto].
  destruct (register conf choice inputs (m_touched m) t) as [[[t' tl] i']|e] eqn:Er.
  - destruct (t_subdir t'); [|discriminate]. destruct (is_dir fs _); [discriminate|].
    destruct (makedirs fs _) as [f|e] eqn:Em; [discriminate|]. inversion H; subst.
    apply makedirs_exn in Em. destruct Em; discriminate.
  - inversion H; subst. exfalso. eapply register_f_exn; [exact Er|reflexivity].
Qed.
Print Assumptions C03_rejection_has_no_effect.
Example C03_example : exists s, prepare ($"/w") ($"prompt") ex_fs ex_m ($"../secret") true None [$"x"] = (Exn MountException, s).
Proof. eexists. vm_compute. reflexivity. Qed.

(** ** C04 *)
Theorem C04_remove_stays_inside : forall cwd fs m path r fs' m',
  absolute cwd -> absolute (m_dir m) ->
  mount_remove cwd fs m path true = (r, (fs', m')) ->
  let victim := requested cwd (m_dir m) path in
  (r = Exn MountException /\ fs' = fs /\ m' = m) \/
  (inside victim (location cwd (m_dir m)) /\
   (forall q, q <> victim -> file_at fs' q = file_at fs q) /\
   (forall q, q <> victim -> is_dir fs' q = is_dir fs q) /\
   ((r = Exn IsADirectoryError /\ fs' = fs) \/
    (r = Ok tt /\ (victim <> [] -> exists_at fs' victim = false)))).
Proof.
  intros cwd fs m path r fs' m' Hc Hd H victim.
  destruct (mount_remove_cases cwd fs m path true r fs' m' Hc H)
    as [(e & H1 & -> & -> & ->)|[(H1 & -> & ->)|(H1 & -> & H2 & H3 & H4)]].
  - left. rewrite (untrack_exn _ _ _ _ Hc Hd H1). auto.
  - right. split; [eapply untrack_inside; eassumption|]. auto.
  - right. split; [eapply untrack_inside; eassumption|]. auto.
Qed.
Print Assumptions C04_remove_stays_inside.
Theorem C04_remove_rejects_outside : forall cwd fs m path,
  absolute cwd -> absolute (m_dir m) -> no_dotdot (m_dir m) ->
  (fst (mount_remove cwd fs m path true) = Exn MountException <->
   ~ inside (requested cwd (m_dir m) path) (location cwd (m_dir m))).
Proof.
  intros cwd fs m path Hc Hd Hn. rewrite requested_join2, <- (normalize_rejects cwd (m_dir m) path Hc Hd Hn).
  unfold mount_remove, untrack. destruct (normalize cwd (m_dir m) path true) as [t|e] eqn:E.
  - split; [|discriminate]. destruct (remove_first t (m_touched m));
      destruct (lookup fs _) as [[c|[|x es]]|]; discriminate.
  - destruct (normalize_cases cwd (m_dir m) path Hc Hd) as [[t Ht]|Hx]; [congruence|].
    rewrite E in Hx. inversion Hx; subst. split; reflexivity.
Qed.
Print Assumptions C04_remove_rejects_outside.
Example C04_example :
  fst (mount_remove ($"/w") ex_fs ex_m ($"sub/b.txt") true) = Ok tt /\
  file_at ex_fs (requested ($"/w") ($"/w/mnt") ($"sub/b.txt")) = Some (Text ($"2")) /\
  fst (mount_remove ($"/w") ex_fs ex_m ($"../secret") true) = Exn MountException.
Proof. vm_compute. auto. Qed.

(** ** C05 *)
Theorem C05_relative_mount_prepares_nothing : forall cwd conf m fs path choice inputs,
  absolute cwd -> ~ absolute (m_dir m) ->
  prepare cwd conf fs m path true choice inputs = (Exn ValueError, (fs, m, inputs)).
Proof.
  intros. unfold prepare. rewrite normalize_relative by assumption. reflexivity.
Qed.
Print Assumptions C05_relative_mount_prepares_nothing.
Theorem C05_relative_mount_removes_anything : forall cwd m fs path c,
  absolute cwd -> ~ absolute (m_dir m) ->
  file_at fs (requested cwd (m_dir m) path) = Some c ->
  exists fs', mount_remove cwd fs m path true = (Ok tt, (fs', m)) /\
    file_at fs' (requested cwd (m_dir m) path) = (match requested cwd (m_dir m) path with [] => Some c | _ => None end) /\
    (forall q, q <> requested cwd (m_dir m) path -> file_at fs' q = file_at fs q).
Proof.
  intros cwd m fs path c Hc Hd Hf. unfold mount_remove, untrack.
  rewrite normalize_relative by assumption. rewrite requested_os by assumption.
  set (L := requested cwd (m_dir m) path) in *.
  assert (El : lookup fs L = Some (File c)) by (unfold file_at in Hf; destruct (lookup fs L) as [[|]|]; congruence).
  rewrite El. eexists. split; [reflexivity|].
  destruct (delete_leaf fs L) as (D1 & D2 & D3); [left; eauto|]. split; [|assumption].
  destruct L as [|x l]; [exact Hf|]. specialize (D3 ltac:(discriminate)).
  unfold exists_at in D3. unfold file_at. destruct (lookup (delete_at fs (x :: l)) (x :: l)); [discriminate|reflexivity].
Qed.
Print Assumptions C05_relative_mount_removes_anything.
Example C05_example :
  ~ absolute (m_dir (new_mount ($"mnt") false false)) /\
  file_at ex_fs (requested ($"/w") ($"mnt") ($"../secret")) = Some (Text ($"s")) /\
  ~ inside (requested ($"/w") ($"mnt") ($"../secret")) (location ($"/w") ($"mnt")) /\
  requested ($"/w") ($"mnt") ($"/w/secret") = [$"w"; $"secret"].
Proof.
  split; [intros [r H]; discriminate|]. split; [reflexivity|]. split; [|reflexivity].
  intros [r H]. vm_compute in H. discriminate.
Qed.

(** ** C06-C09: registration policies *)
Theorem C06_auto_is_fresh : forall conf choice inputs touched p,
  policy conf choice = $"auto" ->
  exists t', register conf choice inputs touched (from_path p) = Ok (t', touched ++ [t'], inputs) /\
    (forall u, In u touched -> teq u t' = false) /\
    t_subdir t' = t_subdir (from_path p) /\ t_suffix t' = t_suffix (from_path p) /\
    ((forall u, In u touched -> teq u (from_path p) = false) -> t' = from_path p).
Proof.
  intros conf choice inputs touched p Hp. set (t := from_path p).
  assert (Hn : named t) by apply from_path_named.
  assert (Hft : forall v, in_touched v touched = false -> forall u, In u touched -> teq u v = false).
  { intros v Hv u Hu. rewrite in_touched_false in Hv. apply teq_false. auto. }
  destruct (in_touched t touched) eqn:Et.
  - destruct (register_auto_touched conf choice inputs touched t Hn Et Hp) as (sd & st & su & j & E & Hs & Hf & Hreg).
    exists (cand sd st su j). split; [assumption|]. split; [auto|]. rewrite E. split; [reflexivity|].
    split; [reflexivity|]. intros Hall. exfalso. apply in_touched_iff in Et as (u & H1 & H2).
    rewrite <- E in Hall. specialize (Hall u H1). apply teq_false in Hall. congruence.
  - exists t. split; [apply register_fresh; assumption|]. split; [auto|]. auto.
Qed.
Print Assumptions C06_auto_is_fresh.
Example C06_example : policy ($"auto") None = $"auto" /\
  exists t', register ($"prompt") (Some ($"auto")) [] [from_path ($"d/a.txt"); from_path ($"d/a0.txt"); from_path ($"d/a1.txt")] (from_path ($"d/a.txt"))
    = Ok (t', [from_path ($"d/a.txt"); from_path ($"d/a0.txt"); from_path ($"d/a1.txt"); t'], [])
    /\ fspath t' = Ok ($"d/a2.txt").
Proof. split; [reflexivity|]. eexists. vm_compute. split; reflexivity. Qed.

Theorem C07_quit : forall conf choice inputs touched p,
  policy conf choice = $"quit" ->
  ((forall u, In u touched -> teq u (from_path p) = false) ->
   register conf choice inputs touched (from_path p) = Ok (from_path p, touched ++ [from_path p], inputs)) /\
  ((exists u, In u touched /\ teq u (from_path p) = true) ->
   register conf choice inputs touched (from_path p) = Exn UserQuitException).
Proof.
  intros conf choice inputs touched p Hp. split; intros H.
  - apply register_fresh. apply in_touched_false. intros u Hu. apply teq_false. auto.
  - apply register_quit_touched; [apply from_path_named| |right; left; symmetry; exact Hp].
    destruct H as (u & H1 & H2). apply in_touched_iff. exists u. apply teq_iff in H2. auto.
Qed.
Print Assumptions C07_quit.
(** and an exception of any kind leaves the mount as it was *)
Theorem C07_quit_no_effect : forall cwd conf m fs path choice inputs s,
  prepare cwd conf fs m path true choice inputs = (Exn UserQuitException, s) -> s = (fs, m, inputs).
Proof.
  intros cwd conf m fs path choice inputs s H. unfold prepare in H.
  destruct (normalize cwd (m_dir m) path true) as [t|e]; [|inversion H; auto].
  destruct (register conf choice inputs (m_touched m) t) as [[[t' tl] i']|e] eqn:Er; [|inversion H; auto].
  destruct (t_subdir t'); [|discriminate]. destruct (is_dir fs _); [discriminate|].
  destruct (makedirs fs _) as [f|e] eqn:Em; [discriminate|]. inversion H; subst.
  apply makedirs_exn in Em. destruct Em; discriminate.
Qed.
Print Assumptions C07_quit_no_effect.
Example C07_example :
  (exists u, In u [from_path ($"d/a.txt")] /\ teq u (from_path ($"d//./a.txt")) = true) /\
  exists s, prepare ($"/w") ($"quit") ex_fs ex_m ($"sub/../a0.json") true None [] = (Exn UserQuitException, s).
Proof. split; [eexists; split; [left; reflexivity|vm_compute; reflexivity]|]. eexists. vm_compute. reflexivity. Qed.

Theorem C08_ignore_never_renames : forall conf choice inputs touched p,
  In (policy conf choice) [$"ignore"; $"_ignore"] ->
  exists touched', register conf choice inputs touched (from_path p) = Ok (from_path p, touched', inputs) /\
    ((touched' = touched /\ exists u, In u touched /\ teq u (from_path p) = true) \/
     (touched' = touched ++ [from_path p] /\ forall u, In u touched -> teq u (from_path p) = false)).
Proof.
  intros conf choice inputs touched p Hp. destruct (in_touched (from_path p) touched) eqn:Et.
  - exists touched. split.
    + apply register_ignore_touched; [apply from_path_named|assumption|]. right. exact Hp.
    + left. split; [reflexivity|]. apply in_touched_iff in Et as (u & H1 & H2). exists u. split; [assumption|].
      apply teq_iff; assumption.
  - exists (touched ++ [from_path p]). split; [apply register_fresh; assumption|]. right. split; [reflexivity|].
    intros u Hu. rewrite in_touched_false in Et. apply teq_false. auto.
Qed.
Print Assumptions C08_ignore_never_renames.
Example C08_example : In (policy ($"auto") (Some ($"_ignore"))) [$"ignore"; $"_ignore"] /\
  register ($"auto") (Some ($"_ignore")) [] [from_path ($"d/a.txt")] (from_path ($"d/a.txt"))
   = Ok (from_path ($"d/a.txt"), [from_path ($"d/a.txt")], []).
Proof. split; [right; left; reflexivity|vm_compute; reflexivity]. Qed.

Theorem C09_prompt_outcomes : forall conf choice inputs touched p,
  policy conf choice = $"prompt" ->
  match register conf choice inputs touched (from_path p) with
  | Ok (t', touched', inputs') =>
      t_subdir t' = t_subdir (from_path p) /\ (exists used, inputs = used ++ inputs') /\
      (((forall u, In u touched -> teq u t' = false) /\ touched' = touched ++ [t']) \/
       ((exists u, In u touched /\ teq u t' = true) /\ touched' = touched /\
        exists l, In l inputs /\ In (lower l) [$"x"; $"ignore"; $"_ignore"]))
  | Exn e => (e = UserQuitException /\ exists l, In l inputs /\ In (lower l) [$"q"; $"quit"]) \/ e = EOFError
  end.
Proof.
  intros conf choice inputs touched p Hp. unfold register.
  pose proof (register_f_prompt conf touched inputs (S (S (S (List.length inputs)))) (from_path p) choice
                (from_path_named p) Hp ltac:(lia)) as H.
  destruct (register_f _ conf choice inputs touched (from_path p)) as [[[t' tl] i']|e]; [|exact H].
  destruct H as (_ & H1 & H2 & H3). split; [assumption|]. split; [assumption|].
  destruct H3 as [[H3 H4]|(H3 & H4 & H5)].
  - left. split; [|assumption]. intros u Hu. rewrite in_touched_false in H3. apply teq_false. auto.
  - right. split; [|split; assumption]. apply in_touched_iff in H3 as (u & U1 & U2). exists u.
    split; [assumption|apply teq_iff; assumption].
Qed.
Print Assumptions C09_prompt_outcomes.
(** A custom name escapes: containment (C01) does not extend to the prompt. *)
Theorem C09_prompt_stays_inside_refuted : exists cwd conf dir m fs path inputs t s l,
  absolute cwd /\ absolute dir /\ no_dotdot dir /\ reachable cwd conf dir m /\ conf = $"prompt" /\
  prepare cwd conf fs m path true None inputs = (Ok t, s) /\
  place cwd dir t = Some l /\ ~ inside l (location cwd dir).
Proof.
  pose (ops := [OpPrepare ($"a.json") None]).
  pose (m := snd (fst (mount_run ($"/w") ($"prompt") (ex_fs, ex_m0) [OpPrepare ($"a.json") (Some ($"auto"))]))).
  exists ($"/w"), ($"prompt"), ($"/w/mnt"), m, ex_fs, ($"a.json"), [$"../../etc"].
  eexists. eexists. exists [$"etc"]. split; [apply abs_intro|]. split; [apply abs_intro|].
  split; [vm_compute; intuition discriminate|]. split.
  { exists ex_fs, false, false, [OpPrepare ($"a.json") (Some ($"auto"))], (fst (fst (mount_run ($"/w") ($"prompt") (ex_fs, ex_m0) [OpPrepare ($"a.json") (Some ($"auto"))]))).
    split; [repeat constructor|reflexivity]. }
  split; [reflexivity|]. split; [vm_compute; reflexivity|]. split; [vm_compute; reflexivity|].
  intros [r H]. vm_compute in H. discriminate.
Qed.
Print Assumptions C09_prompt_stays_inside_refuted.
Example C09_example : policy ($"prompt") None = $"prompt" /\
  exists t', register ($"prompt") None [$"A.txt"; $"b"; $"unread"] [from_path ($"d/a.txt")] (from_path ($"d/a.txt"))
   = Ok (t', [from_path ($"d/a.txt"); t'], [$"unread"]) /\ fspath t' = Ok ($"d/b").
Proof. split; [reflexivity|]. eexists. vm_compute. split; reflexivity. Qed.

(** A name typed at the prompt is registered with its capitals turned into small letters (all capitals of Latin-1),
    whatever the spelling the user chose. *)
Definition capitals : list nat := seq 65 26 ++ seq 192 23 ++ seq 216 7.
Definition lowered : str -> str -> Prop :=
  Forall2 (fun c d : ascii => (In (nat_of_ascii c) capitals /\ nat_of_ascii d = nat_of_ascii c + 32) \/ (~ In (nat_of_ascii c) capitals /\ d = c)).
Lemma lower_c_spec c : (In (nat_of_ascii c) capitals /\ nat_of_ascii (lower_c c) = nat_of_ascii c + 32) \/ (~ In (nat_of_ascii c) capitals /\ lower_c c = c).
Proof.
  assert (H : forall b : bool, match (if in_dec Nat.eq_dec (nat_of_ascii c) capitals then true else false) with
     | true => Nat.eqb (nat_of_ascii (lower_c c)) (nat_of_ascii c + 32) | false => if ascii_dec (lower_c c) c then true else false end = true).
  { intros _. destruct c as [[] [] [] [] [] [] [] []]; vm_compute; reflexivity. }
  specialize (H true). destruct (in_dec _ _ _); [left|right]; (split; [assumption|]).
  - apply Nat.eqb_eq. exact H.
  - destruct (ascii_dec (lower_c c) c); [assumption|discriminate].
Qed.
Lemma lowered_lower l s : lowered l s <-> s = lower l.
Proof.
  split.
  - induction 1 as [|c d l s H _ IH]; [reflexivity|]. cbn [lower map]. fold (lower l). rewrite <- IH. f_equal.
    destruct (lower_c_spec c) as [[A B]|[A B]], H as [[C D]|[C D]]; try contradiction; [|congruence].
    rewrite <- (ascii_nat_embedding d), <- (ascii_nat_embedding (lower_c c)). f_equal. lia.
  - intros ->. induction l as [|c l IH]; constructor; [apply lower_c_spec|exact IH].
Qed.
Theorem C09_typed_name_is_lowered : forall conf choice l inputs touched p s,
  policy conf choice = $"prompt" -> (exists u, In u touched /\ teq u (from_path p) = true) ->
  lowered l s -> ~ In s [[]; $"auto"; $"q"; $"quit"; $"x"; $"ignore"; $"_ignore"] ->
  (forall d, default touched (from_path p) = Ok d -> str_teq s d = false) ->
  (forall t' u, t_subdir t' = t_subdir (from_path p) -> t_name t' = Ok s -> In u touched -> teq u t' = false) ->
  exists t', register conf choice (l :: inputs) touched (from_path p) = Ok (t', touched ++ [t'], inputs) /\
    t_subdir t' = t_subdir (from_path p) /\ t_name t' = Ok s.
Proof.
  intros conf choice l inputs touched p s Hp Hu Hl Hs Hd Hf. apply lowered_lower in Hl.
  assert (Ht : in_touched (from_path p) touched = true).
  { destruct Hu as (u & U1 & U2). apply in_touched_iff. exists u. apply teq_iff in U2. auto. }
  destruct (default_named touched (from_path p) (from_path_named p)) as [[H _]|(_ & sd & st & su & j & _ & _ & _ & Hdef & _)]; [congruence|].
  destruct (update_named (from_path p) s (from_path_named p)) as (t' & Hup & _ & Hsd & Hn).
  exists t'. split; [|split; assumption]. unfold register. cbn [List.length]. remember (S (S (List.length inputs))) as f eqn:Ef. cbn [register_f]. rewrite Ht, Hdef. cbn [bind].
  unfold policy in Hp. rewrite Hp. destruct (str_eq_dec ($"prompt") ($"prompt")) as [_|]; [|congruence]. cbn [prompt_user bind]. rewrite <- Hl.
  assert (Hne : s <> []) by (intros ->; apply Hs; left; reflexivity).
  destruct s as [|c s']; [congruence|]. set (s := c :: s') in *. clearbody s. rewrite (Hd _ Hdef). cbn [orb].
  destruct (str_eq_dec s ($"auto")) as [->|]; [exfalso; apply Hs; right; left; reflexivity|].
  unfold member. destruct (in_dec str_eq_dec s _) as [Hi|]; [exfalso; apply Hs; destruct Hi as [<-|[<-|[]]]; cbn; tauto|].
  destruct (in_dec str_eq_dec s _) as [Hi|]; [exfalso; apply Hs; destruct Hi as [<-|[<-|[<-|[]]]]; cbn; tauto|].
  rewrite Hup. cbn [bind].
  assert (Hfr : in_touched t' touched = false) by (apply in_touched_false; intros u Hin; apply teq_false; auto).
  subst f. cbn [register_f]. rewrite Hfr. reflexivity.
Qed.
Print Assumptions C09_typed_name_is_lowered.
Example C09_typed_example : exists s, lowered ($"Report.TXT") s /\ s = $"report.txt" /\
  exists t', register ($"prompt") None [$"Report.TXT"; $"unread"] [from_path ($"d/a.txt")] (from_path ($"d/a.txt"))
   = Ok (t', [from_path ($"d/a.txt"); t'], [$"unread"]) /\ fspath t' = Ok ($"d/report.txt").
Proof. exists ($"report.txt"). split; [apply lowered_lower; reflexivity|]. split; [reflexivity|]. eexists. vm_compute. split; reflexivity. Qed.

(** ** C10 *)
Theorem C10_targets_distinct : forall cwd conf dir m fs ops,
  absolute cwd -> absolute dir -> reachable cwd conf dir m ->
  Forall (op_policy strict conf) ops -> Forall is_prepare ops ->
  let ts := snd (mount_run cwd conf (fs, m) ops) in
  NoDup (map (place cwd dir) ts) /\
  (forall t u, In t ts -> In u (m_touched m) -> place cwd dir t <> place cwd dir u) /\
  (forall t, In t ts -> place cwd dir t <> None).
Proof.
  intros cwd conf dir m fs ops Hc Hd Hr Hp Hi.
  destruct (reachable_ok _ _ _ _ Hc Hd Hr) as [Hm Hk]. subst dir.
  pose proof (prepares_distinct cwd conf ops fs m Hc Hd Hk Hp Hi) as H.
  destruct (mount_run cwd conf (fs, m) ops) as [s ts]. cbn [snd]. destruct H as (H1 & H2 & H3).
  split; [assumption|]. split; [assumption|]. intros t Ht. rewrite Forall_forall in H3.
  destruct (H3 t Ht) as [rest Hrest]. rewrite (place_rel cwd (m_dir m) t rest) by assumption. discriminate.
Qed.
Print Assumptions C10_targets_distinct.
Example C10_example :
  Forall (op_policy strict ($"quit")) [OpPrepare ($"x/a0.txt") (Some ($"auto")); OpPrepare ($"x/./a0.txt") (Some ($"auto")); OpPrepare ($"/w/mnt/x/a1.txt") None]
  /\ map (place ($"/w") ($"/w/mnt")) (snd (mount_run ($"/w") ($"quit") (ex_fs, ex_m)
      [OpPrepare ($"x/a0.txt") (Some ($"auto")); OpPrepare ($"x/./a0.txt") (Some ($"auto")); OpPrepare ($"/w/mnt/x/a1.txt") None]))
    = [Some [$"w"; $"mnt"; $"x"; $"a0.txt"]; Some [$"w"; $"mnt"; $"x"; $"a1.txt"]].
Proof. split; [repeat (constructor; cbn; auto)|vm_compute; reflexivity]. Qed.

(** ** C11 *)
Theorem C11_untracked_is_available : forall cwd conf dir m fs path fs' m',
  absolute cwd -> absolute dir -> reachable cwd conf dir m ->
  mount_remove cwd fs m path true = (Ok tt, (fs', m')) ->
  (forall u, In u (m_touched m') <-> In u (m_touched m) /\ place cwd dir u <> Some (requested cwd dir path)) /\
  (forall conf2 fs2 choice inputs r s, prepare cwd conf2 fs2 m' path true choice inputs = (r, s) ->
     (exists t, r = Ok t /\ place cwd dir t = Some (requested cwd dir path)) \/
     In r [Exn FileExistsError; Exn NotADirectoryError]).
Proof.
  intros cwd conf dir m fs path fs' m' Hc Hd Hr H.
  destruct (reachable_ok _ _ _ _ Hc Hd Hr) as [Hm Hk]. subst dir.
  destruct (mount_remove_cases cwd fs m path true _ fs' m' Hc H) as [(e & _ & H1 & _)|[(_ & H1 & _)|(H1 & _)]]; try discriminate.
  destruct (untrack_spec cwd m path Hc Hd Hk) as [[E _]|(t & rest & m1 & Hn & Hrel & Hreq & E & Hdir & Hk1 & Hnt & Hiff)];
    [congruence|].
  assert (m1 = m') by congruence. subst m1. split.
  - intros u. rewrite Hiff. split; intros [U1 U2]; (split; [assumption|]); intros U3; apply U2;
      destruct Hk as [Hf _]; rewrite Forall_forall in Hf; destruct (Hf u U1) as [ru Hru].
    + rewrite (place_rel cwd (m_dir m) u ru) in U3 by assumption. rewrite Hreq in U3. inversion U3 as [U4].
      apply app_inv_head in U4. subst ru. apply (rel_target_key_inj u rest t rest); auto.
    + apply (rel_target_key_inj u ru t rest) in U3; [|assumption|assumption]. subst ru.
      rewrite (place_rel cwd (m_dir m) u rest) by assumption. congruence.
  - intros conf2 fs2 choice inputs r s Hp. unfold prepare in Hp. rewrite Hdir, Hn in Hp.
    rewrite register_fresh in Hp by assumption.
    pose proof Hrel as (_ & _ & _ & Hsd). rewrite Hsd in Hp.
    destruct (is_dir fs2 _) in Hp.
    + inversion Hp; subst. left. exists t. split; [reflexivity|].
      rewrite (place_rel cwd (m_dir m) t rest) by assumption. congruence.
    + destruct (makedirs fs2 _) as [f|e] eqn:Em in Hp.
      * inversion Hp; subst. left. exists t. split; [reflexivity|].
        rewrite (place_rel cwd (m_dir m) t rest) by assumption. congruence.
      * inversion Hp; subst. right. apply makedirs_exn in Em. destruct Em as [-> | ->]; cbn; auto.
Qed.
Print Assumptions C11_untracked_is_available.
Example C11_example :
  exists fs' m', mount_remove ($"/w") ex_fs ex_m ($"a0.json") true = (Ok tt, (fs', m')) /\
   m_touched ex_m = [from_path ($"a0.json")] /\ m_touched m' = [] /\
   exists t s, prepare ($"/w") ($"quit") fs' m' ($"a0.json") true None [] = (Ok t, s).
Proof.
  let v := eval vm_compute in (mount_remove ($"/w") ex_fs ex_m ($"a0.json") true) in
  match v with (_, (?f, ?m)) => exists f, m end.
  split; [vm_compute; reflexivity|]. split; [vm_compute; reflexivity|]. split; [reflexivity|].
  match goal with |- exists t s, ?x = _ => let v := eval vm_compute in x in match v with (Ok ?t, ?s) => exists t, s end end.
  vm_compute. reflexivity.
Qed.

(** ** C12 *)
Theorem C12_normalize_canonical : forall cwd dir p q t u,
  absolute cwd -> absolute dir ->
  normalize cwd dir p true = Ok t -> normalize cwd dir q true = Ok u ->
  (teq t u = true <-> requested cwd dir p = requested cwd dir q) /\
  place cwd dir t = Some (requested cwd dir p).
Proof. exact normalize_canonical. Qed.
Print Assumptions C12_normalize_canonical.
Example C12_example : exists t u,
  normalize ($"/w") ($"/w/mnt") ($"a//b/../c.txt") true = Ok t /\
  normalize ($"/w") ($"/w/mnt") ($"/w/../w/mnt/./a/c.txt") true = Ok u /\ teq t u = true.
Proof.
  let v := eval vm_compute in (normalize ($"/w") ($"/w/mnt") ($"a//b/../c.txt") true) in
  match v with Ok ?t => exists t, t end.
  split; [|split]; vm_compute; reflexivity.
Qed.

(** ** C13 *)
(** The last defined value of a list, starting from a default. *)
Fixpoint last_defined (d : part) (l : list part) : part :=
  match l with [] => d | None :: r => last_defined d r | Some v :: r => last_defined (Some v) r end.
Theorem C13_merge_last_wins : forall t args,
  t_subdir (merge t args) = last_defined (t_subdir t) (map t_subdir args) /\
  t_stem (merge t args) = last_defined (t_stem t) (map t_stem args) /\
  t_suffix (merge t args) = last_defined (t_suffix t) (map t_suffix args).
Proof.
  intros t args. revert t. induction args as [|a args IH]; intros t; [auto|].
  cbn [merge map last_defined]. specialize (IH (merge2 t a)). cbn [t_subdir t_stem t_suffix merge2] in IH.
  destruct a as [[|] [|] [|]]; cbn in *; exact IH.
Qed.
Print Assumptions C13_merge_last_wins.
Theorem C13_merge_associative : forall a b c ts us,
  merge (merge a [b]) [c] = merge a [merge b [c]] /\ merge a (ts ++ us) = merge (merge a ts) us.
Proof. intros. split; [apply merge2_assoc|apply merge_app]. Qed.
Print Assumptions C13_merge_associative.
Theorem C13_update_name : forall t n, is_complete t = true ->
  exists u, update t None None None (Some n) = Ok u /\ t_name u = Ok n /\ t_subdir u = t_subdir t /\ is_complete u = true.
Proof.
  intros [[sd|] [st|] [su|]] n H; try discriminate.
  unfold update, Target. pose proof (splitext_app n) as Hs. destruct (splitext n) as [a b]. cbn [fst snd] in Hs.
  eexists. split; [reflexivity|]. cbn. rewrite Hs. auto.
Qed.
Print Assumptions C13_update_name.
Example C13_example : is_complete (from_path ($"d/a.txt")) = true /\
  merge (from_path ($"d/a.txt")) [mkTarget None (Some ($"b")) None; mkTarget (Some ($"e")) None None] = from_path ($"e/b.txt").
Proof. vm_compute. auto. Qed.

(** ** C14 *)
Theorem C14_path_round_trip : forall sd st su p,
  ~ In ("/"%char : ascii) (st ++ su) ->
  fspath (mkTarget (Some sd) (Some st) (Some su)) = Ok p ->
  teq (from_path p) (mkTarget (Some sd) (Some st) (Some su)) = true /\ t_name (from_path p) = Ok (st ++ su).
Proof.
  intros sd st su p Hn H. split.
  - apply teq_iff. destruct (from_path_fspath p) as (q & Hq & E).
    rewrite (t_key_fspath _ _ Hq), (t_key_fspath _ _ H), E. reflexivity.
  - inversion H; subst. apply from_path_name. exact Hn.
Qed.
Print Assumptions C14_path_round_trip.
Theorem C14_fspath_raises_iff_incomplete : forall t,
  (fspath t = Exn TargetException <-> is_complete t = false) /\
  (forall e, fspath t = Exn e -> e = TargetException).
Proof. intros [[sd|] [st|] [su|]]; unfold fspath, is_complete; cbn; split; try split; congruence. Qed.
Print Assumptions C14_fspath_raises_iff_incomplete.
Example C14_example : ~ In ("/"%char : ascii) ($"b.tar" ++ $".gz") /\
  fspath (mkTarget (Some ($"a/./")) (Some ($"b.tar")) (Some ($".gz"))) = Ok ($"a/./b.tar.gz").
Proof. split; [vm_compute; intuition discriminate|reflexivity]. Qed.

(** ** C15 *)
Theorem C15_prune_keeps_files : forall fs l, well_formed fs -> forall q,
  file_at (prune_directories fs l) q = file_at fs q.
Proof. exact prune_directories_file_at. Qed.
Print Assumptions C15_prune_keeps_files.
Theorem C15_prune_exact : forall fs l, well_formed fs -> forall q,
  is_dir (prune_directories fs l) q = true <->
  is_dir fs q = true /\ (inside q l -> q <> l -> holds_file fs q).
Proof. exact prune_directories_is_dir. Qed.
Print Assumptions C15_prune_exact.
(** Closing a mount changes no file but one .gitignore. *)
Theorem C15_close_keeps_files : forall cwd fs m fs', absolute cwd -> well_formed fs ->
  mount_close cwd fs m = Ok fs' ->
  exists d, (d = m_dir m \/ d = fst (path_split (m_dir m))) /\
    forall q, q <> location cwd d ++ [$".gitignore"] -> file_at fs' q = file_at fs q.
Proof. exact close_files. Qed.
Print Assumptions C15_close_keeps_files.
Example C15_example : well_formed ex_fs /\
  is_dir ex_fs [$"w"; $"mnt"; $"sub"; $"empty"] = true /\
  is_dir (prune_directories ex_fs [$"w"; $"mnt"]) [$"w"; $"mnt"; $"sub"; $"empty"] = false /\
  is_dir (prune_directories ex_fs [$"w"; $"mnt"]) [$"w"; $"mnt"; $"sub"] = true /\
  is_dir (prune_directories ex_fs [$"w"; $"mnt"]) [$"w"; $".dman"] = true.
Proof.
  split; [|vm_compute; auto].
  repeat (split || constructor); cbn; intuition discriminate.
Qed.

(** ** C16 *)
Theorem C16_gitignore_lines : forall cwd fs dir ignored check fs',
  absolute cwd -> Forall one_line ignored ->
  gitignore cwd fs dir ignored check = Ok fs' ->
  let G := requested cwd dir ($".gitignore") in
  (forall q, q <> G -> file_at fs' q = file_at fs q) /\ (forall q, is_dir fs' q = is_dir fs q) /\
  match file_at fs' G with
  | None => forall p, gi_line cwd fs dir ignored check p -> p = $".gitignore"
  | Some (Text s) => (forall p, In p (splitlines s) <-> gi_line cwd fs dir ignored check p) /\ NoDup (splitlines s) /\
                     exists p, gi_line cwd fs dir ignored check p /\ p <> $".gitignore"
  | Some (Json _) => False
  end.
Proof.
  intros cwd fs dir ignored check fs' Hc Hi H G.
  destruct (gitignore_ok cwd fs dir ignored check fs' Hc Hi H) as (H1 & H2 & [(H3 & H4 & _)|(H3 & s & H4 & H5 & _)]);
    unfold G; (split; [assumption|]; split; [assumption|]); rewrite H4; [assumption|].
  rewrite H5. split; [|split; [|assumption]].
  - intros p. apply gi_entries_In; assumption.
  - apply (gi_entries_props cwd fs dir ignored check Hi).
Qed.
Print Assumptions C16_gitignore_lines.
Theorem C16_gitignore_idempotent : forall cwd fs dir ignored check fs' s,
  absolute cwd -> Forall one_line ignored ->
  gitignore cwd fs dir ignored check = Ok fs' ->
  file_at fs' (requested cwd dir ($".gitignore")) = Some (Text s) ->
  gitignore cwd fs' dir ignored check = Ok fs'.
Proof. exact gitignore_again. Qed.
Print Assumptions C16_gitignore_idempotent.
(** The lines of a text as Python reads them: a line ends at a line feed, carriage return, both, vertical tab, form feed, file, group or
    record separator or next line; what follows the last of these is a line if it is not empty. *)
Definition ends_line (c : ascii) : Prop := In (code c) [10; 11; 12; 13; 28; 29; 30; 133].
Definition unbroken (s : str) : Prop := forall c, In c s -> ~ ends_line c.
Inductive lines : str -> list str -> Prop :=
| lines_none : lines [] []
| lines_last s : s <> [] -> unbroken s -> lines s [s]
| lines_crlf s r l : unbroken s -> lines r l -> lines (s ++ ascii_of_nat 13 :: ascii_of_nat 10 :: r) (s :: l)
| lines_more s b r l : unbroken s -> ends_line b -> ~ (code b = 13 /\ exists c r', r = c :: r' /\ code c = 10) -> lines r l -> lines (s ++ b :: r) (s :: l).
Lemma ends_break c : ends_line c <-> is_line_break c = true.
Proof.
  unfold ends_line, is_line_break. cbn [In]. rewrite !orb_true_iff, !Nat.eqb_eq.
  intuition congruence.
Qed.
Lemma unbroken_one s : unbroken s <-> one_line s.
Proof.
  split; intros H c Hc; specialize (H c Hc).
  - destruct (is_line_break c) eqn:E; [|reflexivity]. exfalso. apply H, ends_break, E.
  - intros E. apply ends_break in E. congruence.
Qed.
Lemma acc_break b r : is_line_break b = true -> forall s cur, one_line s -> splitlines_acc cur (s ++ b :: r) = (rev cur ++ s) :: splitlines_acc [] r.
Proof.
  intros Hb. induction s as [|c s IH]; intros cur H; cbn.
  - rewrite Hb, app_nil_r. reflexivity.
  - rewrite (H c) by (left; reflexivity). rewrite IH by (intros d Hd; apply H; right; assumption). cbn. rewrite <- app_assoc. reflexivity.
Qed.
Lemma newlines_over s r : one_line s -> universal_newlines (s ++ r) = s ++ universal_newlines r.
Proof.
  induction s as [|c x IH]; intros H; [reflexivity|]. cbn [app universal_newlines].
  destruct (Nat.eqb_spec (code c) 13) as [Hc|_]; [exfalso; specialize (H c (or_introl eq_refl)); unfold is_line_break in H; rewrite Hc in H; discriminate|].
  rewrite IH by (intros d Hd; apply H; right; assumption). reflexivity.
Qed.
Lemma lines_sound s l : lines s l -> splitlines s = l.
Proof.
  induction 1 as [|s Hn Hs|s r l Hs _ IH|s b r l Hs Hb Hnot _ IH]; unfold splitlines.
  - reflexivity.
  - apply unbroken_one in Hs. rewrite <- (app_nil_r s) at 1. rewrite newlines_over by assumption. cbn [universal_newlines]. rewrite app_nil_r, splitlines_acc_last by assumption. reflexivity.
  - apply unbroken_one in Hs. rewrite newlines_over by assumption. cbn [universal_newlines]. change (code (ascii_of_nat 13) =? 13) with true. change (code (ascii_of_nat 10) =? 10) with true. cbn iota.
    rewrite acc_break by (reflexivity || assumption). cbn [rev app]. f_equal. exact IH.
  - apply unbroken_one in Hs. apply ends_break in Hb. rewrite newlines_over by assumption. cbn [universal_newlines]. destruct (Nat.eqb_spec (code b) 13) as [E|E].
    + destruct r as [|c r]; [|destruct (Nat.eqb_spec (code c) 10) as [E2|E2]; [exfalso; apply Hnot; eauto|]];
        (rewrite acc_break by (reflexivity || assumption); cbn [rev app]; f_equal; exact IH).
    + rewrite acc_break by assumption. cbn [rev app]. f_equal. exact IH.
Qed.
Lemma first_break s : unbroken s \/ exists a b r, s = a ++ b :: r /\ unbroken a /\ ends_line b.
Proof.
  induction s as [|c s IH]; [left; intros c []|]. destruct (is_line_break c) eqn:E.
  - right. exists [], c, s. split; [reflexivity|]. split; [intros d []|apply ends_break, E].
  - assert (Hc : ~ ends_line c) by (rewrite ends_break; congruence). destruct IH as [IH|(a & b & r & -> & Ha & Hb)].
    + left. intros d [<-|Hd]; auto.
    + right. exists (c :: a), b, r. split; [reflexivity|]. split; [intros d [<-|Hd]; auto|exact Hb].
Qed.
Lemma lines_total : forall n s, List.length s <= n -> exists l, lines s l.
Proof.
  induction n as [|n IH]; intros s Hn.
  - destruct s; [|cbn in Hn; lia]. exists []. constructor.
  - destruct (first_break s) as [Hs|(a & b & r & -> & Ha & Hb)].
    + destruct s as [|c s]; [exists []; constructor|]. exists [c :: s]. constructor; [discriminate|exact Hs].
    + rewrite app_length in Hn. cbn in Hn. destruct (Nat.eq_dec (code b) 13) as [E|E].
      * destruct r as [|c r']; [|destruct (Nat.eq_dec (code c) 10) as [E2|E2]].
        -- exists [a]. apply lines_more; auto using lines_none. intros (_ & c & r' & H & _). discriminate.
        -- cbn in Hn. destruct (IH r' ltac:(lia)) as [l Hl]. exists (a :: l).
           assert (b = ascii_of_nat 13 /\ c = ascii_of_nat 10) as [-> ->] by (unfold code in E, E2; rewrite <- (ascii_nat_embedding b), <- (ascii_nat_embedding c), E, E2; auto). apply lines_crlf; assumption.
        -- destruct (IH (c :: r') ltac:(cbn in *; lia)) as [l Hl]. exists (a :: l). apply lines_more; auto. intros (_ & c' & r'' & H & Hc). injection H as <- <-. auto.
      * destruct (IH r ltac:(lia)) as [l Hl]. exists (a :: l). apply lines_more; auto. intros [H _]. auto.
Qed.
Theorem C16_lines_of_text : forall s, (forall l, splitlines s = l <-> lines s l) /\ (one_line s <-> unbroken s).
Proof.
  intros s. split; [|symmetry; apply unbroken_one]. intros l. split; [|apply lines_sound]. intros <-.
  destruct (lines_total _ s (le_n _)) as [l Hl]. rewrite (lines_sound s l Hl). exact Hl.
Qed.
Print Assumptions C16_lines_of_text.
Example C16_example :
  let fs := Dir [($"w", Dir [($".gitignore", File (Text ($"old" ++ [ascii_of_nat 10] ++ $"gone"))); ($"old", File (Text []))])] in
  Forall one_line [$"new"] /\
  exists fs', gitignore ($"/") fs ($"/w") [$"new"] [from_path ($"gone"); from_path ($"old")] = Ok fs' /\
    file_at fs' [$"w"; $".gitignore"] = Some (Text (join_lines [$".gitignore"; $"new"; $"old"])).
Proof.
  split; [|eexists; vm_compute; split; reflexivity].
  constructor; [|constructor]. intros c Hc. repeat (destruct Hc as [<-|Hc]; [reflexivity|]). contradiction.
Qed.

(** ** C17 *)
(** [a] is a directory in which [get_root_path] looks when started in [cwd]. *)
Definition searched (cwd a : loc) : Prop := inside cwd a /\ (a = [] -> cwd = []).
Theorem C17_root_is_nearest : forall fs cwd create l fs',
  get_root_path fs cwd create = Ok (l, fs') ->
  (fs' = fs /\ exists a, searched cwd a /\ l = a ++ [$".dman"] /\ is_dir fs l = true /\
     forall a', searched cwd a' -> List.length a < List.length a' -> is_dir fs (a' ++ [$".dman"]) = false) \/
  (create = true /\ l = cwd ++ [$".dman"] /\ is_dir fs' l = true /\
   (forall a, searched cwd a -> is_dir fs (a ++ [$".dman"]) = false) /\
   (forall q, file_at fs' q = file_at fs q)).
Proof.
  intros fs cwd create l fs' H. unfold get_root_path in H.
  pose proof (find_root_spec fs (rev cwd)) as F. rewrite rev_involutive in F.
  assert (Hnil : forall a : loc, (a = [] -> rev cwd = []) <-> (a = [] -> cwd = [])).
  { intros a. split; intros G Ha; specialize (G Ha).
    - rewrite <- (rev_involutive cwd), G. reflexivity.
    - rewrite G. reflexivity. }
  destruct (find_root fs (rev cwd)) as [l0|].
  - inversion H; subst. left. split; [reflexivity|].
    destruct F as (a & b & F1 & F2 & F3 & F4 & F5). exists a. split; [split; [exists b; exact F1|apply Hnil; exact F4]|].
    split; [assumption|]. split; [assumption|]. intros a' [[b' Hb'] _] Hl. eapply F5; eassumption.
  - destruct create; [|discriminate]. right. split; [reflexivity|].
    destruct (exists_at fs (cwd ++ [root_folder])); [discriminate|].
    destruct (makedirs fs (cwd ++ [root_folder])) as [f|e] eqn:Em; [|discriminate]. cbn [bind] in H. inversion H; subst.
    split; [reflexivity|]. split.
    + rewrite (makedirs_is_dir _ _ _ Em). apply orb_true_iff. right. apply is_prefix_iff. exists []. rewrite app_nil_r. reflexivity.
    + split; [|eapply makedirs_file_at; eassumption].
      intros a [[b Hb] Ha]. apply (F a b Hb). apply Hnil. exact Ha.
Qed.
Print Assumptions C17_root_is_nearest.
Theorem C17_root_error : forall fs cwd create,
  get_root_path fs cwd create = Exn RootError <->
  create = false /\ forall a, searched cwd a -> is_dir fs (a ++ [$".dman"]) = false.
Proof.
  intros fs cwd create. unfold get_root_path.
  pose proof (find_root_spec fs (rev cwd)) as F. rewrite rev_involutive in F.
  assert (Hnil : forall a : loc, (a = [] -> rev cwd = []) <-> (a = [] -> cwd = [])).
  { intros a. split; intros G Ha; specialize (G Ha).
    - rewrite <- (rev_involutive cwd), G. reflexivity.
    - rewrite G. reflexivity. }
  destruct (find_root fs (rev cwd)) as [l0|].
  - split; [discriminate|]. intros [_ H]. exfalso. destruct F as (a & b & F1 & F2 & F3 & F4 & _).
    specialize (H a (conj (ex_intro _ b F1) (proj1 (Hnil a) F4))). subst l0. unfold root_folder in F3. congruence.
  - destruct create.
    + split; [|intros [H _]; discriminate]. destruct (exists_at fs _); [discriminate|].
      destruct (makedirs fs _) as [f|e] eqn:Em; [discriminate|]. cbn. intros H. inversion H; subst.
      apply makedirs_exn in Em. destruct Em; discriminate.
    + split; [|reflexivity]. intros _. split; [reflexivity|].
      intros a [[b Hb] Ha]. apply (F a b Hb). apply Hnil. exact Ha.
Qed.
Print Assumptions C17_root_error.
(** The root directory of the file system is skipped: a project there is not found from below. *)
Theorem C17_filesystem_root_is_skipped : forall fs x cwd,
  (forall a, a <> [] -> inside (x :: cwd) a -> is_dir fs (a ++ [$".dman"]) = false) ->
  get_root_path fs (x :: cwd) false = Exn RootError.
Proof.
  intros fs x cwd H. apply C17_root_error. split; [reflexivity|]. intros a [Hi Hn]. apply H; [|assumption].
  intros ->. specialize (Hn eq_refl). discriminate.
Qed.
Print Assumptions C17_filesystem_root_is_skipped.
Example C17_example : get_root_path ex_fs [$"w"; $"mnt"; $"sub"] false = Ok ([$"w"; $".dman"], ex_fs) /\
  get_root_path (Dir [($".dman", Dir []); ($"p", Dir [])]) [$"p"] false = Exn RootError /\
  get_root_path (Dir [($".dman", Dir []); ($"p", Dir [])]) [] false = Ok ([$".dman"], Dir [($".dman", Dir []); ($"p", Dir [])]).
Proof. vm_compute. auto. Qed.

(** ** C18 *)
Theorem C18_mount_directory : forall cwd base g sd k,
  ~ absolute g -> ~ absolute sd ->
  location cwd (mount_dir base g sd k false) = walk (location cwd base) (components g ++ components sd) /\
  (plain k -> location cwd (mount_dir base g sd k true) =
              walk (location cwd base) (components g ++ components sd) ++ [k]).
Proof.
  intros cwd base g sd k Hg Hs.
  assert (Hg' : isabs g = false) by (destruct (isabs g) eqn:E; [exfalso; apply Hg, absolute_isabs; assumption|reflexivity]).
  assert (Hs' : isabs sd = false) by (destruct (isabs sd) eqn:E; [exfalso; apply Hs, absolute_isabs; assumption|reflexivity]).
  assert (A : location cwd (mount_dir base g sd k false) = walk (location cwd base) (components g ++ components sd)).
  { unfold mount_dir, joinN. cbn [fold_left]. rewrite !location_join2_any, Hg', Hs', !components_split, walk_app. reflexivity. }
  split; [exact A|]. intros Hk. rewrite mount_dir_key by (apply plain_clean; assumption). rewrite A. reflexivity.
Qed.
Print Assumptions C18_mount_directory.
Theorem C18_keys_isolated : forall cwd base g sd k1 k2 l,
  plain k1 -> plain k2 -> k1 <> k2 ->
  inside l (location cwd (mount_dir base g sd k1 true)) ->
  ~ inside l (location cwd (mount_dir base g sd k2 true)).
Proof.
  intros cwd base g sd k1 k2 l H1 H2 Hne [r1 ->] [r2 E].
  rewrite !mount_dir_key in E by (apply plain_clean; assumption).
  change (mount_dir base g sd k1 false) with (mount_dir base g sd k2 false) in E.
  rewrite <- !app_assoc in E. apply app_inv_head in E. cbn in E. inversion E. contradiction.
Qed.
Print Assumptions C18_keys_isolated.
Example C18_example : plain ($"key") /\ plain ($"..key") /\ ~ absolute ($"cache") /\
  location ($"/w") (mount_dir ($"/w/.dman") ($"cache") ($"x/y") ($"key") true) = [$"w"; $".dman"; $"cache"; $"x"; $"y"; $"key"].
Proof.
  repeat split; try discriminate; try (vm_compute; intuition discriminate); try (intros [r H]; discriminate).
Qed.

(** ** C19 *)
(** Names separated by colons. *)
Fixpoint colon_join (l : list str) : str :=
  match l with [] => [] | [x] => x | x :: r => x ++ ":"%char :: colon_join r end.
Lemma colons_noslash s : noslash s -> colons s = s.
Proof.
  induction s as [|c r IH]; intros H; [reflexivity|]. cbn. destruct (ascii_dec c sep) as [->|].
  - exfalso. apply H. left; reflexivity.
  - f_equal. apply IH. intros Hi. apply H. right; exact Hi.
Qed.
Lemma colons_join l : Forall noslash l -> colons (join_sep l) = colon_join l.
Proof.
  induction 1 as [|x l Hx Hl IH]; [reflexivity|]. destruct l as [|y l].
  - apply colons_noslash; assumption.
  - change (join_sep (x :: y :: l)) with (x ++ sep :: join_sep (y :: l)). rewrite colons_app, colons_noslash by assumption.
    change (colons (sep :: join_sep (y :: l))) with (":"%char :: colons (join_sep (y :: l))). rewrite IH. reflexivity.
Qed.
Lemma removelast_Forall {A} (P : A -> Prop) l : Forall P l -> Forall P (removelast l).
Proof.
  induction 1 as [|x l Hx Hl IH]; [constructor|]. destruct l as [|y l]; [constructor|].
  change (removelast (x :: y :: l)) with (x :: removelast (y :: l)). constructor; assumption.
Qed.

Lemma script_label_eq : forall cwd root argv0 dirs file,
  absolute cwd -> argv0 <> [] ->
  location cwd argv0 = root ++ dirs ++ [file] ->
  script_label cwd root argv0 = colon_join (match dirs with [] => [$"."] | _ => dirs end) ++ $":" ++ path_stem file.
Proof.
  intros cwd root argv0 dirs file Hc Hn E. unfold script_label. destruct argv0 as [|c r] eqn:Ea; [congruence|].
  rewrite <- Ea in *. clear Ea. rewrite os_loc_location by assumption.
  assert (Hs : strip_prefix root (location cwd argv0) = Some (dirs ++ [file])) by (apply strip_prefix_iff; assumption).
  rewrite Hs, removelast_last, last_last. pose proof (location_clean cwd argv0) as Hcl. rewrite E in Hcl.
  apply Forall_app in Hcl as [_ Hcl]. apply Forall_app in Hcl as [Hcl _].
  destruct dirs as [|d ds]; [reflexivity|]. rewrite colons_join; [reflexivity|]. apply clean_split; assumption.
Qed.

Lemma colon_join_inj a b : Forall nocolon a -> Forall nocolon b -> a <> [] -> b <> [] -> colon_join a = colon_join b -> a = b.
Proof.
  intros Ha. revert b. induction Ha as [|x a Hx Ha IH]; intros b Hb Hna Hnb E; [congruence|].
  destruct b as [|y b]; [congruence|]. inversion Hb as [|? ? Hy Hb']; subst.
  assert (K : forall p q u v, nocolon p -> nocolon q -> p ++ ":"%char :: u = q ++ ":"%char :: v -> p = q /\ u = v).
  { clear. induction p as [|c p IH]; intros [|d q] u v Hp Hq E; cbn in E.
    - inversion E; auto.
    - inversion E; subst. exfalso. apply Hq. left; reflexivity.
    - inversion E; subst. exfalso. apply Hp. left; reflexivity.
    - inversion E as [[E1 E2]]. destruct (IH q u v) as [-> ->]; auto.
      + intros H; apply Hp; right; exact H.
      + intros H; apply Hq; right; exact H. }
  destruct a as [|x2 a], b as [|y2 b].
  - cbn in E. congruence.
  - exfalso. cbn [colon_join] in E. apply Hx. rewrite E. apply in_or_app; right; left; reflexivity.
  - exfalso. cbn [colon_join] in E. apply Hy. rewrite <- E. apply in_or_app; right; left; reflexivity.
  - change (x ++ ":"%char :: colon_join (x2 :: a) = y ++ ":"%char :: colon_join (y2 :: b)) in E.
    apply K in E as [-> E]; [|assumption|assumption]. f_equal. apply IH; [assumption|discriminate|discriminate|exact E].
Qed.

Lemma label_injective : forall cwd root argv1 argv2 dirs1 file1 dirs2 file2 ext,
  absolute cwd -> argv1 <> [] -> argv2 <> [] ->
  location cwd argv1 = root ++ dirs1 ++ [file1] ->
  location cwd argv2 = root ++ dirs2 ++ [file2] ->
  Forall (fun s => ~ In (":"%char : ascii) s) (file1 :: file2 :: dirs1 ++ dirs2) ->
  file1 = path_stem file1 ++ ext -> file2 = path_stem file2 ++ ext ->
  script_label cwd root argv1 = script_label cwd root argv2 ->
  location cwd argv1 = location cwd argv2.
Proof.
  intros cwd root argv1 argv2 dirs1 file1 dirs2 file2 ext Hc N1 N2 E1 E2 Hcol X1 X2 H.
  rewrite (script_label_eq cwd root argv1 dirs1 file1), (script_label_eq cwd root argv2 dirs2 file2) in H by assumption.
  inversion Hcol as [|? ? C1 Hcol']; subst. inversion Hcol' as [|? ? C2 Hcol'']; subst.
  apply Forall_app in Hcol'' as [C3 C4].
  assert (S1 : nocolon (path_stem file1)) by (intros Hi; apply C1; rewrite X1; apply in_or_app; left; exact Hi).
  assert (S2 : nocolon (path_stem file2)) by (intros Hi; apply C2; rewrite X2; apply in_or_app; left; exact Hi).
  change ($":" ++ path_stem file1) with (":"%char :: path_stem file1) in H.
  change ($":" ++ path_stem file2) with (":"%char :: path_stem file2) in H.
  apply split_last_colon in H as [H1 H2]; [|assumption|assumption].
  assert (Hf : file1 = file2) by congruence.
  assert (Hcl : forall argv d f, location cwd argv = root ++ d ++ [f] -> Forall clean d).
  { intros argv d f E. pose proof (location_clean cwd argv) as Hcl. rewrite E in Hcl.
    apply Forall_app in Hcl as [_ Hcl]. apply Forall_app in Hcl as [Hcl _]. exact Hcl. }
  assert (Hdot : nocolon ($".")) by (intros [Hx|[]]; discriminate).
  assert (Hd : match dirs1 with [] => [$"."] | _ => dirs1 end = match dirs2 with [] => [$"."] | _ => dirs2 end).
  { apply colon_join_inj; [| | | |exact H1].
    - destruct dirs1; [constructor; [exact Hdot|constructor]|exact C3].
    - destruct dirs2; [constructor; [exact Hdot|constructor]|exact C4].
    - destruct dirs1; discriminate.
    - destruct dirs2; discriminate. }
  rewrite E1, E2, Hf. do 2 f_equal.
  pose proof (Hcl _ _ _ E1) as K1. pose proof (Hcl _ _ _ E2) as K2.
  destruct dirs1 as [|d1 r1], dirs2 as [|d2 r2]; [reflexivity| | |exact Hd].
  - inversion Hd; subst. inversion K2 as [|? ? (_ & Kd & _) _]; subst. contradiction Kd; reflexivity.
  - inversion Hd; subst. inversion K1 as [|? ? (_ & Kd & _) _]; subst. contradiction Kd; reflexivity.
Qed.
(** The stem of a file name: what precedes its last dot, unless the name begins or ends with that dot or has none. *)
Inductive stem_of : str -> str -> Prop :=
| stem_cut s x : s <> [] -> x <> [] -> ~ In ("."%char : ascii) x -> stem_of (s ++ "."%char :: x) s
| stem_none s : ~ In ("."%char : ascii) s -> stem_of s s
| stem_first x : ~ In ("."%char : ascii) x -> stem_of ("."%char :: x) ("."%char :: x)
| stem_last s : stem_of (s ++ ["."%char]) (s ++ ["."%char]).
Lemma stem_sound f s : stem_of f s -> path_stem f = s.
Proof.
  intros H. unfold path_stem. destruct H as [s x Hs Hx Hd|s Hd|x Hd|s].
  - pose proof (split_last_dot_app_dot s x Hd) as E. change dot_c with ("."%char : ascii) in E. cbn [app] in E. rewrite E. destruct s; [congruence|]. destruct x; [congruence|]. reflexivity.
  - rewrite (proj2 (split_last_dot_None s) Hd). reflexivity.
  - pose proof (split_last_dot_app_dot [] x Hd) as E. change dot_c with ("."%char : ascii) in E. cbn [app] in E. rewrite E. reflexivity.
  - pose proof (split_last_dot_app_dot s [] ltac:(intros [])) as E. change dot_c with ("."%char : ascii) in E. cbn [app] in E. rewrite E. destruct s; reflexivity.
Qed.
Lemma stem_total f : stem_of f (path_stem f).
Proof.
  unfold path_stem. destruct (split_last_dot f) as [[a b]|] eqn:E.
  - destruct (split_last_dot_suffix _ _ _ E) as (x & -> & Hx). apply split_last_dot_app in E as <-.
    destruct a as [|c a]; [apply stem_first; exact Hx|]. destruct x as [|y x]; [apply stem_last|]. apply stem_cut; [discriminate|discriminate|exact Hx].
  - apply stem_none. apply split_last_dot_None. exact E.
Qed.
(** Every file name has exactly one stem. *)
Theorem C19_stem : forall f s, stem_of f s <-> s = path_stem f.
Proof. intros f s. split; [intros H; symmetry; apply stem_sound; exact H|intros ->; apply stem_total]. Qed.
Print Assumptions C19_stem.
Theorem C19_script_label : forall cwd root argv0 dirs file stem,
  absolute cwd -> argv0 <> [] -> location cwd argv0 = root ++ dirs ++ [file] -> stem_of file stem ->
  script_label cwd root argv0 = colon_join (match dirs with [] => [$"."] | _ => dirs end) ++ $":" ++ stem.
Proof. intros cwd root argv0 dirs file stem Hc Hn E Hs. apply stem_sound in Hs as <-. apply script_label_eq; assumption. Qed.
Print Assumptions C19_script_label.
(** Two scripts that differ at most in their directories and stems have different labels, if no name has a colon. *)
Theorem C19_label_injective : forall cwd root argv1 argv2 dirs1 stem1 dirs2 stem2 ext,
  absolute cwd -> argv1 <> [] -> argv2 <> [] ->
  location cwd argv1 = root ++ dirs1 ++ [stem1 ++ ext] ->
  location cwd argv2 = root ++ dirs2 ++ [stem2 ++ ext] ->
  stem_of (stem1 ++ ext) stem1 -> stem_of (stem2 ++ ext) stem2 ->
  Forall (fun s => ~ In (":"%char : ascii) s) ((stem1 ++ ext) :: (stem2 ++ ext) :: dirs1 ++ dirs2) ->
  script_label cwd root argv1 = script_label cwd root argv2 ->
  location cwd argv1 = location cwd argv2.
Proof.
  intros cwd root argv1 argv2 dirs1 stem1 dirs2 stem2 ext Hc N1 N2 E1 E2 S1 S2 Hcol H.
  apply (label_injective cwd root argv1 argv2 dirs1 (stem1 ++ ext) dirs2 (stem2 ++ ext) ext); try assumption.
  - rewrite (stem_sound _ _ S1). reflexivity.
  - rewrite (stem_sound _ _ S2). reflexivity.
Qed.
Print Assumptions C19_label_injective.
(** A script outside of the project is labelled by its stem alone, so that scripts in different directories share labels;
    without a script the label is that of the interpreter. *)
Theorem C19_label_outside : forall cwd root file stem, absolute cwd -> stem_of file stem -> file <> [] -> file <> $"." -> ~ In ("/"%char : ascii) file ->
  script_label cwd root [] = $"__interpreter__" /\
  (~ inside (location cwd file) root -> script_label cwd root file = stem) /\
  forall dir, ~ inside (location cwd (dir ++ $"/" ++ file)) root -> script_label cwd root (dir ++ $"/" ++ file) = stem.
Proof.
  intros cwd root file stem Hc Hs Hn Hd Hsl. apply stem_sound in Hs as <-. split; [reflexivity|].
  assert (G : forall argv0, argv0 <> [] -> ~ inside (location cwd argv0) root -> script_label cwd root argv0 = path_stem (last (comps_cp argv0) [])).
  { intros argv0 Hne Ho. unfold script_label. destruct argv0 as [|c r] eqn:Ea; [congruence|]. rewrite <- Ea in *. rewrite os_loc_location by assumption.
    destruct (strip_prefix root (location cwd argv0)) as [rel|] eqn:Es; [|reflexivity]. exfalso. apply strip_prefix_iff in Es. apply Ho. exists rel. exact Es. }
  assert (L : filter not_curdir (split_sep file) = [file]).
  { replace (split_sep file) with [file] by (symmetry; apply (split_join [file]); [repeat constructor; exact Hsl|discriminate]).
    cbn [filter]. unfold not_curdir. destruct (str_eq_dec file dot) as [E|_]; [contradiction|]. destruct file; [congruence|reflexivity]. }
  split.
  - intros Ho. rewrite G by assumption. unfold comps_cp. rewrite L. reflexivity.
  - intros dir Ho. rewrite G by (assumption || (destruct dir; discriminate)). unfold comps_cp. change (dir ++ $"/" ++ file) with (dir ++ sep :: file).
    rewrite split_app, filter_app, L, last_last. reflexivity.
Qed.
Print Assumptions C19_label_outside.
(** Without the shared extension, or with colons in names, labels collide. *)
Theorem C19_label_injective_refuted :
  (exists cwd root a b, absolute cwd /\ location cwd a <> location cwd b /\
    script_label cwd root a = script_label cwd root b /\ inside (location cwd a) root /\ inside (location cwd b) root) /\
  (exists cwd root a b ext sa sb, absolute cwd /\ a = sa ++ ext /\ b = sb ++ ext /\ ext = $".py" /\
    location cwd a <> location cwd b /\ script_label cwd root a = script_label cwd root b).
Proof.
  split.
  - exists ($"/w"), [$"w"], ($"d/run.py"), ($"d/run.sh"). split; [apply abs_intro|]. split; [vm_compute; discriminate|].
    split; [reflexivity|]. split; eexists; vm_compute; reflexivity.
  - exists ($"/w"), [$"w"], ($"d/e/run.py"), ($"d:e/run.py"), ($".py"), ($"d/e/run"), ($"d:e/run").
    split; [apply abs_intro|]. repeat split; try reflexivity. vm_compute. discriminate.
Qed.
Print Assumptions C19_label_injective_refuted.
Example C19_example : location ($"/w/scripts") ($"../x/y/run.py") = [$"w"] ++ [$"x"; $"y"] ++ [$"run.py"] /\
  script_label ($"/w/scripts") [$"w"] ($"../x/y/run.py") = $"x:y:run" /\ stem_of ($"run" ++ $".py") ($"run") /\
  ~ inside (location ($"/w") ($"../v/run.py")) [$"w"] /\ script_label ($"/w") [$"w"] ($"../v/run.py") = $"run".
Proof.
  split; [reflexivity|]. split; [reflexivity|]. split; [apply (stem_cut ($"run") ($"py")); cbn; intuition discriminate|]. split; [|reflexivity].
  intros [r H]. vm_compute in H. discriminate.
Qed.
