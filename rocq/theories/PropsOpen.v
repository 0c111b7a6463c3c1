(** C106: files opened by the user through a mount. *)
From Coq Require Import Ascii String List Bool Arith Lia.
From Verif Require Import Base PosixModel FsModel PathModel PathSpec MountSpec OpenModel PosixProof FsProof TargetProof MountProof
     HistoryProof PathFacts PropsPath.
Import ListNotations.

Definition open_at (fs : node) (m : mount) (l : loc) (md : mode) (b : block) : opened :=
  let leave r := match b_raises b with None => (Ok r, Some true) | Some e => (Exn e, Some false) end in
  match md with
  | MRead =>
      match lookup fs l with
      | Some (File c) => let (r, k) := leave (Some c) in mkOpened r k fs m
      | Some (Dir _) => mkOpened (Exn IsADirectoryError) None fs m
      | None => mkOpened (Exn FileNotFoundError) None fs m
      end
  | MWrite =>
      let s := match b_raises b with None => b_text b | Some _ => b_flushed b end in
      match write_file fs l (Text s) with
      | Ok fs2 => let (r, k) := leave None in mkOpened r k fs2 m
      | Exn e => mkOpened (Exn e) None fs m
      end
  end.
Lemma open_cases cwd conf fs m path md b : absolute cwd -> absolute (m_dir m) -> touched_ok (m_touched m) -> In conf unattended ->
  mount_open cwd conf fs m path md b = mkOpened (Exn MountException) None fs m /\ normalize cwd (m_dir m) path true = Exn MountException
  \/ (exists t rest, normalize cwd (m_dir m) path true = Ok t /\ rel_target t rest /\ requested cwd (m_dir m) path = location cwd (m_dir m) ++ rest
     /\ ((mount_open cwd conf fs m path md b = mkOpened (Exn UserQuitException) None fs m /\ in_touched t (m_touched m) = true /\ conf = $"quit")
        \/ exists t' rest' touched', rel_target t' rest' /\ touched_ok touched' /\ removelast rest' = removelast rest
           /\ (in_touched t (m_touched m) = false -> t' = t /\ rest' = rest)
           /\ ((touched' = m_touched m ++ [t'] /\ in_touched t' (m_touched m) = false)
               \/ (touched' = m_touched m /\ t' = t /\ rest' = rest /\ in_touched t (m_touched m) = true /\ In conf [$"ignore"; $"_ignore"]))
           /\ ((exists fs', (forall q, file_at fs' q = file_at fs q)
                  /\ (forall q, is_dir fs' q = is_dir fs q || is_prefix q (location cwd (m_dir m) ++ removelast rest'))
                  /\ mount_open cwd conf fs m path md b = open_at fs' (set_touched m touched') (location cwd (m_dir m) ++ rest') md b)
               \/ (exists e, In e [FileExistsError; NotADirectoryError]
                  /\ mount_open cwd conf fs m path md b = mkOpened (Exn e) None fs (set_touched m touched'))))).
Proof.
  intros Hc Hd Hk Hp. unfold mount_open.
  destruct (prepare_spec cwd conf fs m path None [] Hc Hd Hk Hp) as (r & f & mm & -> & P).
  inversion P as [Hx|t rest Hx Hr Hi Hq Hreq|t rest t' rest' touched' r0 f0 Hx Hrel Hreq Hrel' Hk' Hrm Hsu Hid Hcase Hres]; subst; clear P.
  - left. auto.
  - right. exists t, rest. split; [exact Hx|]. split; [exact Hr|]. split; [exact Hreq|]. left. split; [reflexivity|]. split; [exact Hi | exact Hq].
  - right. exists t, rest. split; [exact Hx|]. split; [exact Hrel|]. split; [exact Hreq|]. right. exists t', rest', touched'.
    do 4 (split; [assumption|]). split; [exact Hcase|].
    destruct Hres as [(-> & F & D)|(e & -> & He & ->)].
    + left. exists f. split; [exact F|]. split; [exact D|]. pose proof Hrel' as (_ & _ & Hf & _). rewrite Hf. cbn [m_dir set_touched].
      destruct (rel_target_location cwd (m_dir m) t' rest' _ Hd Hrel' Hf) as (_ & L & _).
      rewrite os_loc_location by exact Hc. rewrite L. reflexivity.
    + right. exists e. split; [exact He | reflexivity].
Qed.
Lemma open_at_mount fs m l md b : o_mount (open_at fs m l md b) = m.
Proof.
  unfold open_at. destruct md.
  - destruct (lookup fs l) as [[c|es]|]; [destruct (b_raises b)| |]; reflexivity.
  - destruct (write_file fs l _); [destruct (b_raises b)|]; reflexivity.
Qed.
Lemma open_at_files fs m l md b q : q <> l -> file_at (o_fs (open_at fs m l md b)) q = file_at fs q.
Proof.
  intros N. unfold open_at. destruct md.
  - destruct (lookup fs l) as [[c|es]|]; [destruct (b_raises b)| |]; reflexivity.
  - destruct (write_file fs l _) as [fs2|e] eqn:E; [|reflexivity]. pose proof (write_file_lookup _ _ _ _ E q) as W.
    destruct (loc_eq_dec q l); [contradiction|]. destruct (b_raises b); exact W.
Qed.

(** Only files inside the mount are written, and no directory is lost. *)
Theorem C106_stays_inside : forall cwd conf dir m fs path md b q, absolute cwd -> absolute dir -> reachable cwd conf dir m -> In conf unattended ->
  ~ inside q (location cwd dir) -> file_at (o_fs (mount_open cwd conf fs m path md b)) q = file_at fs q.
Proof.
  intros cwd conf dir m fs path md b q Hc Hd Hr Hp N. destruct (reachable_ok _ _ _ _ Hc Hd Hr) as [Hm Hk]. subst dir.
  destruct (open_cases cwd conf fs m path md b Hc Hd Hk Hp) as [[-> _]|(t & rest & _ & _ & _ & [(-> & _)|(t' & rest' & touched' & _ & _ & _ & _ & _ & [(fs' & F & _ & ->)|(e & _ & ->)])])];
    try reflexivity.
  rewrite open_at_files, F; [reflexivity|]. intros ->. apply N. exists rest'. reflexivity.
Qed.
(** The block is run to its end exactly if the file is closed; a block that raises leaves the file open. *)
Theorem C106_closed : forall cwd conf fs m path md b,
  let o := mount_open cwd conf fs m path md b in
  (o_closed o = Some true <-> exists r, o_result o = Ok r)
  /\ (o_closed o = Some false -> exists e, b_raises b = Some e /\ o_result o = Exn e)
  /\ (b_raises b <> None -> o_closed o <> Some true).
Proof.
  intros cwd conf fs m path md b. cbv zeta. unfold mount_open.
  destruct (prepare cwd conf fs m path true None []) as [[t|e] [[f mm] i]]; [destruct (fspath t) as [p|e]; [destruct md|]|];
    [destruct (lookup f _) as [[c|es]|]| destruct (write_file f _ _) as [f2|e] | | ];
    try (destruct (b_raises b) as [x|]); cbn [o_closed o_result];
    (split; [split; [try discriminate; intros _; eexists; reflexivity | intros [r E]; try discriminate E; reflexivity]|]);
    (split; [try discriminate; intros _; eexists; split; reflexivity | try discriminate; congruence]).
Qed.
Lemma same_request cwd (m : mount) path touched' t :
  normalize cwd (m_dir m) path true = Ok t -> normalize cwd (m_dir (set_touched m touched')) path true = Ok t.
Proof. intros H. exact H. Qed.
Lemma known_afterwards cwd conf fs m path md b t : absolute cwd -> absolute (m_dir m) -> touched_ok (m_touched m) -> In conf unattended ->
  normalize cwd (m_dir m) path true = Ok t ->
  let o := mount_open cwd conf fs m path md b in
  touched_ok (m_touched (o_mount o)) /\ m_dir (o_mount o) = m_dir m /\ in_touched t (m_touched (o_mount o)) = true.
Proof.
  intros Hc Hd Hk Hp Hn. cbv zeta.
  destruct (open_cases cwd conf fs m path md b Hc Hd Hk Hp) as [[_ X]|(t0 & rest & Hn0 & Hr & _ & H)]; [congruence|].
  assert (t0 = t) by congruence. subst t0.
  destruct H as [(-> & Hi & _)|(t' & rest' & touched' & _ & Hk' & _ & Hid & Hcase & H)]; [auto|].
  assert (K : touched_ok (m_touched (set_touched m touched')) /\ m_dir (set_touched m touched') = m_dir m /\ in_touched t (m_touched (set_touched m touched')) = true).
  { cbn [m_touched set_touched m_dir]. split; [exact Hk'|]. split; [reflexivity|].
    destruct (in_touched t (m_touched m)) eqn:Et.
    - destruct Hcase as [[-> _]|(-> & _)]; [|exact Et]. apply in_touched_iff in Et as (u & U1 & U2). apply in_touched_iff. exists u.
      split; [apply in_or_app; left; exact U1 | exact U2].
    - destruct (Hid eq_refl) as [-> _]. destruct Hcase as [[-> _]|(_ & _ & _ & X & _)]; [|discriminate].
      apply in_touched_iff. exists t. split; [apply in_or_app; right; left; reflexivity | reflexivity]. }
  destruct H as [(fs' & _ & _ & ->)|(e & _ & ->)]; [rewrite open_at_mount|]; exact K.
Qed.
Lemma normal_form cwd m path t : absolute cwd -> absolute (m_dir m) -> normalize cwd (m_dir m) path true = Ok t ->
  exists rest, rel_target t rest /\ requested cwd (m_dir m) path = location cwd (m_dir m) ++ rest.
Proof.
  intros Hc Hd H. destruct (normalize_ok cwd (m_dir m) path Hc Hd t H) as (rest & L & _ & R). exists rest. split; [exact R|].
  rewrite requested_join2. exact L.
Qed.
Lemma accepted cwd m path : absolute cwd -> absolute (m_dir m) -> no_dotdot (m_dir m) -> inside (requested cwd (m_dir m) path) (location cwd (m_dir m)) ->
  exists t, normalize cwd (m_dir m) path true = Ok t.
Proof.
  intros Hc Hd Hn Hin. destruct (normalize_cases cwd (m_dir m) path Hc Hd) as [Ht|Hx]; [exact Ht|]. exfalso.
  apply normalize_rejects in Hx; try assumption. apply Hx. rewrite <- requested_join2. exact Hin.
Qed.
(** With 'quit' a path is opened once: every later call raises, also for reading what was written, and changes nothing. *)
Theorem C106_quit : forall cwd dir m fs path md b fs2 md2 b2, absolute cwd -> absolute dir -> no_dotdot dir -> reachable cwd ($"quit") dir m ->
  inside (requested cwd dir path) (location cwd dir) ->
  let o := mount_open cwd ($"quit") fs m path md b in
  mount_open cwd ($"quit") fs2 (o_mount o) path md2 b2 = mkOpened (Exn UserQuitException) None fs2 (o_mount o).
Proof.
  intros cwd dir m fs path md b fs2 md2 b2 Hc Hd Hnd Hr Hin. cbv zeta. destruct (reachable_ok _ _ _ _ Hc Hd Hr) as [Hm Hk]. subst dir.
  destruct (accepted cwd m path Hc Hd Hnd Hin) as [t Hn]. destruct (normal_form cwd m path t Hc Hd Hn) as (rest & R & _).
  destruct (known_afterwards cwd ($"quit") fs m path md b t Hc Hd Hk ltac:(cbn; auto) Hn) as (K1 & K2 & K3).
  set (m1 := o_mount (mount_open cwd ($"quit") fs m path md b)) in *.
  unfold mount_open, prepare. rewrite K2, Hn.
  rewrite register_quit_touched; [reflexivity | apply R | exact K3 | right; left; reflexivity].
Qed.
(** With 'auto' what was written is never read back: after a path was opened in any way, opening it again for reading opens a file
    that the mount has not handed out before, or raises. *)
Theorem C106_auto : forall cwd dir m fs path md b fs2 b2 c, absolute cwd -> absolute dir -> reachable cwd ($"auto") dir m ->
  let o := mount_open cwd ($"auto") fs m path md b in
  o_result (mount_open cwd ($"auto") fs2 (o_mount o) path MRead b2) = Ok (Some c) ->
  (exists u, In u (m_touched (o_mount o)) /\ place cwd dir u = Some (requested cwd dir path))
  /\ exists l, file_at fs2 l = Some c /\ inside l (location cwd dir)
     /\ forall u, In u (m_touched (o_mount o)) -> place cwd dir u <> Some l.
Proof.
  intros cwd dir m fs path md b fs2 b2 c Hc Hd Hr. cbv zeta. intros E. destruct (reachable_ok _ _ _ _ Hc Hd Hr) as [Hm Hk]. subst dir.
  assert (Hp : In ($"auto") unattended) by (cbn; auto).
  destruct (normalize cwd (m_dir m) path true) as [t|e] eqn:Hn.
  - destruct (normal_form cwd m path t Hc Hd Hn) as (rest & R & Q).
    destruct (known_afterwards cwd ($"auto") fs m path md b t Hc Hd Hk Hp Hn) as (K1 & K2 & K3).
    set (m1 := o_mount (mount_open cwd ($"auto") fs m path md b)) in *.
    destruct (open_cases cwd ($"auto") fs2 m1 path MRead b2 Hc ltac:(rewrite K2; exact Hd) K1 Hp) as [[_ X]|(t0 & rest0 & Hn0 & R0 & Q0 & H)]; [rewrite K2 in X; congruence|].
    rewrite K2 in Hn0, Q0. assert (t0 = t) by congruence. subst t0.
    assert (rest0 = rest) as -> by (rewrite Q in Q0; apply app_inv_head in Q0; congruence).
    split.
    + apply in_touched_iff in K3 as (u & U1 & U2). exists u. split; [exact U1|]. destruct K1 as [K1 _]. rewrite Forall_forall in K1. destruct (K1 u U1) as [ru Ru].
      rewrite (place_rel cwd (m_dir m) u ru Hd Ru), Q. apply (rel_target_key_inj _ _ _ _ Ru R) in U2. rewrite U2. reflexivity.
    + destruct H as [(X & _)|(t' & rest' & touched' & R' & _ & Hrm & _ & Hcase & H)]; [rewrite X in E; discriminate|].
      destruct H as [(fs' & F & _ & X)|(e & _ & X)]; rewrite X in E; [|discriminate]. rewrite K2 in *.
      destruct Hcase as [[_ Fr]|(_ & _ & _ & _ & [Y|[Y|[]]])]; try discriminate Y.
      exists (location cwd (m_dir m) ++ rest'). split; [|split].
      * rewrite <- F. unfold open_at in E. unfold file_at. destruct (lookup fs' _) as [[c0|es]|]; [|discriminate|discriminate].
        destruct (b_raises b2); [discriminate|]. cbn in E. inversion E. reflexivity.
      * exists rest'. reflexivity.
      * intros u Hu. destruct K1 as [K1 _]. rewrite Forall_forall in K1. destruct (K1 u Hu) as [ru Ru].
        rewrite (place_rel cwd (m_dir m) u ru Hd Ru). intros P. injection P as P. apply app_inv_head in P. subst ru.
        rewrite in_touched_false in Fr. apply (Fr u Hu). apply (rel_target_key_inj _ _ _ _ Ru R'). reflexivity.
  - exfalso. destruct (normalize_cases cwd (m_dir m) path Hc Hd) as [[t Ht]|Hx]; [congruence|].
    assert (M : o_mount (mount_open cwd ($"auto") fs m path md b) = m) by (unfold mount_open, prepare; rewrite Hx; reflexivity).
    rewrite M in E. unfold mount_open, prepare in E. rewrite Hx in E. discriminate.
Qed.
(** With 'ignore' a text that was written is read back. *)
Theorem C106_ignore : forall cwd conf dir m fs path b b2, absolute cwd -> absolute dir -> reachable cwd conf dir m -> In conf [$"ignore"; $"_ignore"] ->
  let o := mount_open cwd conf fs m path MWrite b in
  o_closed o = Some true -> b_raises b2 = None ->
  o_result (mount_open cwd conf (o_fs o) (o_mount o) path MRead b2) = Ok (Some (Text (b_text b)))
  /\ file_at (o_fs o) (requested cwd dir path) = Some (Text (b_text b)).
Proof.
  intros cwd conf dir m fs path b b2 Hc Hd Hr Hi. cbv zeta. intros Ecl Hb2. destruct (reachable_ok _ _ _ _ Hc Hd Hr) as [Hm Hk]. subst dir.
  assert (Hp : In conf unattended) by (destruct Hi as [<-|[<-|[]]]; cbn; auto).
  destruct (normalize cwd (m_dir m) path true) as [t|e] eqn:Hn.
  2: { exfalso. unfold mount_open, prepare in Ecl. rewrite Hn in Ecl. discriminate. }
  destruct (normal_form cwd m path t Hc Hd Hn) as (rest & R & Q).
  destruct (known_afterwards cwd conf fs m path MWrite b t Hc Hd Hk Hp Hn) as (K1 & K2 & K3).
  destruct (open_cases cwd conf fs m path MWrite b Hc Hd Hk Hp) as [[X _]|(t0 & rest0 & Hn0 & R0 & Q0 & H)]; [rewrite X in Ecl; discriminate|].
  assert (t0 = t) by congruence. subst t0. assert (rest0 = rest) as -> by (rewrite Q in Q0; apply app_inv_head in Q0; congruence).
  destruct H as [(X & _)|(t' & rest' & touched' & R' & Hk' & Hrm & Hid & Hcase & H)]; [rewrite X in Ecl; discriminate|].
  assert (Same : rest' = rest).
  { destruct (in_touched t (m_touched m)) eqn:Et; [|apply Hid; reflexivity].
    destruct Hcase as [[Htt _]|(_ & _ & X & _)]; [|exact X].
    exfalso. destruct H as [(fs' & _ & _ & X)|(e & _ & X)]; [|rewrite X in Ecl; discriminate].
    assert (M : o_mount (mount_open cwd conf fs m path MWrite b) = m).
    { unfold mount_open, prepare. rewrite Hn. rewrite register_ignore_touched; [|apply R | exact Et | right; exact Hi].
      destruct (t_subdir t); [|destruct m; reflexivity].
      destruct (is_dir fs _); [|destruct (makedirs fs _)]; try (destruct (fspath t); [destruct (write_file _ _ _); [destruct (b_raises b)|]|]); destruct m; reflexivity. }
    rewrite X, open_at_mount, Htt in M.
    apply (f_equal m_touched) in M. cbn [m_touched set_touched] in M. apply (f_equal (@List.length _)) in M. rewrite app_length in M. cbn in M. lia. }
  subst rest'. destruct H as [(fs' & F & D & X)|(e & _ & X)]; [|rewrite X in Ecl; discriminate].
  set (o := mount_open cwd conf fs m path MWrite b) in *.
  assert (W : exists fs2, write_file fs' (location cwd (m_dir m) ++ rest) (Text (b_text b)) = Ok fs2 /\ o_fs o = fs2).
  { rewrite X in Ecl. rewrite X. unfold open_at in *. destruct (b_raises b) as [x|].
    - destruct (write_file fs' _ _); discriminate.
    - destruct (write_file fs' _ _) as [fs2|]; [|discriminate]. exists fs2. split; reflexivity. }
  destruct W as (fs2 & W & Eo). pose proof (write_file_lookup _ _ _ _ W) as WL. pose proof (write_file_is_dir _ _ _ _ W) as WD.
  assert (File : file_at (o_fs o) (location cwd (m_dir m) ++ rest) = Some (Text (b_text b))).
  { rewrite Eo, WL. destruct (loc_eq_dec _ _); [reflexivity | congruence]. }
  split; [|rewrite Q; exact File].
  assert (Dir : is_dir (o_fs o) (location cwd (m_dir m) ++ removelast rest) = true).
  { rewrite Eo, WD, D. apply orb_true_iff. right. apply is_prefix_iff. exists []. rewrite app_nil_r. reflexivity. }
  unfold mount_open at 1, prepare. rewrite K2, Hn. rewrite register_ignore_touched; [|apply R | exact K3 | right; exact Hi].
  pose proof R as (Rc & _ & Rf & Rs). rewrite Rs. rewrite os_loc_location by exact Hc.
  assert (Ls : location cwd (join2 (m_dir m) (join_sep (removelast rest))) = location cwd (m_dir m) ++ removelast rest).
  { rewrite location_join2_any. assert (C2 : Forall clean (removelast rest)) by (apply removelast_Forall; exact Rc).
    rewrite isabs_join_clean by exact C2. destruct (removelast rest) as [|x r] eqn:Er; [cbn; rewrite app_nil_r; reflexivity|]. rewrite <- Er in *.
    rewrite split_join; [apply walk_clean_app; exact C2 | apply clean_split; exact C2 | rewrite Er; discriminate]. }
  rewrite Ls, Dir, Rf. cbn [m_dir set_touched]. rewrite K2. rewrite os_loc_location by exact Hc.
  destruct (rel_target_location cwd (m_dir m) t rest _ Hd R Rf) as (_ & L & _). rewrite L.
  unfold file_at in File. destruct (lookup (o_fs o) (location cwd (m_dir m) ++ rest)) as [[c|es]|]; try discriminate.
  rewrite Hb2. cbn [o_result]. inversion File. reflexivity.
Qed.
(** Opening a missing file for reading raises, but its name is registered and its directory is made. *)
Theorem C106_missing : forall cwd conf dir m fs path b, absolute cwd -> absolute dir -> reachable cwd conf dir m -> In conf unattended ->
  (forall u, In u (m_touched m) -> place cwd dir u <> Some (requested cwd dir path)) ->
  let o := mount_open cwd conf fs m path MRead b in
  o_closed o = None -> o_result o = Exn FileNotFoundError ->
  file_at fs (requested cwd dir path) = None /\ (forall q, file_at (o_fs o) q = file_at fs q)
  /\ (exists u, In u (m_touched (o_mount o)) /\ place cwd dir u = Some (requested cwd dir path))
  /\ is_dir (o_fs o) (location cwd dir) = true
  /\ (requested cwd dir path <> location cwd dir -> is_dir (o_fs o) (removelast (requested cwd dir path)) = true).
Proof.
  intros cwd conf dir m fs path b Hc Hd Hr Hp Hfree. cbv zeta. intros Ecl E. destruct (reachable_ok _ _ _ _ Hc Hd Hr) as [Hm Hk]. subst dir.
  destruct (open_cases cwd conf fs m path MRead b Hc Hd Hk Hp) as [[X _]|(t & rest & Hn & R & Q & H)]; [rewrite X in E; discriminate|].
  assert (Nt : in_touched t (m_touched m) = false).
  { apply in_touched_false. intros u Hu X. pose proof Hk as [Hk1 _]. rewrite Forall_forall in Hk1. destruct (Hk1 u Hu) as [ru Ru].
    apply (Hfree u Hu). rewrite (place_rel cwd (m_dir m) u ru Hd Ru), Q. apply (rel_target_key_inj _ _ _ _ Ru R) in X. rewrite X. reflexivity. }
  destruct H as [(X & _)|(t' & rest' & touched' & R' & Hk' & Hrm & Hid & Hcase & H)]; [rewrite X in E; discriminate|].
  destruct (Hid Nt) as [-> ->]. destruct Hcase as [[-> _]|(_ & _ & _ & X & _)]; [|congruence].
  destruct H as [(fs' & F & D & X)|(e & He & X)]; rewrite X in *; [|destruct He as [<-|[<-|[]]]; discriminate].
  unfold open_at in *. destruct (lookup fs' (location cwd (m_dir m) ++ rest)) as [[c|es]|] eqn:El; [destruct (b_raises b); discriminate | discriminate |].
  cbn [o_fs o_mount m_touched set_touched]. split; [rewrite Q, <- F; unfold file_at; rewrite El; reflexivity|]. split; [exact F|]. split.
  - exists t. split; [apply in_or_app; right; left; reflexivity|]. rewrite (place_rel cwd (m_dir m) t rest Hd R), Q. reflexivity.
  - split; [rewrite D; apply orb_true_iff; right; apply is_prefix_iff; eexists; reflexivity|]. intros Ne. rewrite Q in *.
    destruct rest as [|x r]; [rewrite app_nil_r in Ne; congruence|]. rewrite removelast_app by discriminate. rewrite D. apply orb_true_iff. right.
    apply is_prefix_iff. exists []. rewrite app_nil_r. reflexivity.
Qed.

Definition ex_block : block := mkBlock ($"hello") ($"he") None.
Definition ex_bad : block := mkBlock ($"hello") ($"he") (Some ValueError).
Definition ex_new : mount := new_mount ($"/w/mnt") false false.
Lemma ex_reach conf : reachable ($"/w") conf ($"/w/mnt") ex_new.
Proof. exists ex_fs, false, false, [], ex_fs. split; [constructor | reflexivity]. Qed.
Example C106_ex :
  let w conf := mount_open ($"/w") conf ex_fs ex_new ($"sub/n.txt") MWrite ex_block in
  let r conf := mount_open ($"/w") conf (o_fs (w conf)) (o_mount (w conf)) ($"sub/n.txt") MRead ex_block in
  o_closed (w ($"ignore")) = Some true /\ o_result (r ($"ignore")) = Ok (Some (Text ($"hello")))
  /\ o_result (r ($"auto")) = Exn FileNotFoundError /\ o_result (r ($"quit")) = Exn UserQuitException
  /\ (let o := mount_open ($"/w") ($"auto") ex_fs ex_new ($"new/n.txt") MRead ex_block in
      o_result o = Exn FileNotFoundError /\ is_dir (o_fs o) [$"w"; $"mnt"; $"new"] = true)
  /\ (let o := mount_open ($"/w") ($"auto") ex_fs ex_new ($"n.txt") MWrite ex_bad in
      o_result o = Exn ValueError /\ o_closed o = Some false /\ file_at (o_fs o) [$"w"; $"mnt"; $"n.txt"] = Some (Text ($"he"))).
Proof. vm_compute. auto 10. Qed.
(** With 'auto' the file that is read can be one that was there before, under the next name. *)
Example C106_auto_ex :
  let fs := Dir [($"w", Dir [($"mnt", Dir [($"n0.txt", File (Text ($"old")))])])] in
  let w := mount_open ($"/w") ($"auto") fs ex_new ($"n.txt") MWrite ex_block in
  o_result (mount_open ($"/w") ($"auto") (o_fs w) (o_mount w) ($"n.txt") MRead ex_block) = Ok (Some (Text ($"old"))).
Proof. vm_compute. reflexivity. Qed.

Print Assumptions C106_stays_inside.
Print Assumptions C106_closed.
Print Assumptions C106_quit.
Print Assumptions C106_auto.
Print Assumptions C106_ignore.
Print Assumptions C106_missing.
