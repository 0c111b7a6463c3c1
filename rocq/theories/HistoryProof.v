(** Invariants over histories of calls on a mount. *)
From Coq Require Import List Ascii String Bool Arith NArith Lia.
From Verif Require Import Base PosixModel FsModel PathModel PathSpec MountSpec
     PosixProof FsProof TargetProof MountProof.
Import ListNotations.

Lemma requested_eq cwd dir p : absolute dir -> requested cwd dir p = location cwd (join2 dir p).
Proof.
  intros Hd. rewrite location_join2 by assumption. unfold requested. rewrite components_split.
  unfold isabs. change "/"%char with sep. destruct p as [|c r]; [reflexivity|].
  destruct (ascii_dec c sep) as [->|]; [|reflexivity].
  rewrite location_eq. cbn [isabs]. destruct (ascii_dec sep sep); [reflexivity|congruence].
Qed.

Lemma place_rel cwd dir t rest : absolute dir -> rel_target t rest ->
  place cwd dir t = Some (location cwd dir ++ rest).
Proof.
  intros Hd Hr. unfold place. pose proof Hr as (_ & _ & Hf & _). rewrite Hf.
  f_equal. rewrite requested_eq by assumption. eapply rel_target_location; eassumption.
Qed.

Definition touched_ok (l : list target) : Prop :=
  Forall (fun t => exists rest, rel_target t rest) l /\ NoDup (map t_key l).

Lemma touched_ok_snoc l t rest : touched_ok l -> rel_target t rest -> in_touched t l = false ->
  touched_ok (l ++ [t]).
Proof.
  intros [H1 H2] Ht Hf. split.
  - apply Forall_app; split; [assumption|]. constructor; [eauto|constructor].
  - rewrite map_app. cbn. apply NoDup_Add with (a := t_key t) (l := map t_key l).
    + rewrite <- (app_nil_r (map t_key l)) at 1. apply Add_app.
    + split; [assumption|]. intros Hi. apply in_map_iff in Hi as (u & Hu & Hi).
      rewrite in_touched_false in Hf. eapply Hf; eauto.
Qed.

(** registration with an unattended policy *)
Lemma register_unattended conf choice inputs touched t rest :
  rel_target t rest -> touched_ok touched -> In (eff_choice conf choice) unattended ->
  (in_touched t touched = true /\ eff_choice conf choice = $"quit" /\
   register conf choice inputs touched t = Exn UserQuitException) \/
  (exists t' touched' rest', register conf choice inputs touched t = Ok (t', touched', inputs) /\
     rel_target t' rest' /\ touched_ok touched' /\ removelast rest' = removelast rest /\
     t_suffix t' = t_suffix t /\
     (in_touched t touched = false -> t' = t /\ rest' = rest) /\
     ((touched' = touched ++ [t'] /\ in_touched t' touched = false) \/
      (touched' = touched /\ t' = t /\ rest' = rest /\ in_touched t touched = true /\ In (eff_choice conf choice) [$"ignore"; $"_ignore"]))).
Proof.
  intros Hr Hk Hc. pose proof Hr as (Hcl & Hn & _ & _).
  destruct (in_touched t touched) eqn:Et.
  - destruct Hc as [Hc|[Hc|Hc]].
    + right. destruct (register_auto_touched conf choice inputs touched t Hn Et (eq_sym Hc))
        as (sd & st & su & j & -> & Hs & Hf & Hreg).
      destruct (cand_rel sd st su rest j Hr Hs) as (nm & Hrel & _).
      exists (cand sd st su j), (touched ++ [cand sd st su j]), (removelast rest ++ [nm]).
      split; [assumption|]. split; [assumption|]. split; [eapply touched_ok_snoc; eassumption|].
      split; [apply removelast_last|]. split; [reflexivity|]. split; [discriminate|].
      left; auto.
    + left. split; [reflexivity|]. split; [congruence|].
      apply register_quit_touched; [assumption|assumption|]. rewrite <- Hc. right; left; reflexivity.
    + right. exists t, touched, rest. split.
      * apply register_ignore_touched; [assumption|assumption|].
        destruct Hc as [<-|[<-|[]]]; [right; left|right; right; left]; reflexivity.
      * split; [assumption|]. split; [assumption|]. split; [reflexivity|]. split; [reflexivity|].
        split; [discriminate|]. right.
        repeat split; auto.
  - right. exists t, (touched ++ [t]), rest. split; [apply register_fresh; assumption|].
    split; [assumption|]. split; [eapply touched_ok_snoc; eassumption|].
    split; [reflexivity|]. split; [reflexivity|]. split; [auto|]. left; auto.
Qed.

(** prepare, described *)
Inductive prepared (cwd conf : str) (fs : node) (m : mount) (path : str) (choice : option str)
  : res target -> node -> mount -> Prop :=
| prep_reject : normalize cwd (m_dir m) path true = Exn MountException ->
    prepared cwd conf fs m path choice (Exn MountException) fs m
| prep_quit t rest : normalize cwd (m_dir m) path true = Ok t -> rel_target t rest ->
    in_touched t (m_touched m) = true -> eff_choice conf choice = $"quit" ->
    requested cwd (m_dir m) path = location cwd (m_dir m) ++ rest ->
    prepared cwd conf fs m path choice (Exn UserQuitException) fs m
| prep_ok t rest t' rest' touched' r fs' : normalize cwd (m_dir m) path true = Ok t -> rel_target t rest ->
    requested cwd (m_dir m) path = location cwd (m_dir m) ++ rest ->
    rel_target t' rest' -> touched_ok touched' -> removelast rest' = removelast rest ->
    t_suffix t' = t_suffix t ->
    (in_touched t (m_touched m) = false -> t' = t /\ rest' = rest) ->
    ((touched' = m_touched m ++ [t'] /\ in_touched t' (m_touched m) = false) \/
      (touched' = m_touched m /\ t' = t /\ rest' = rest /\ in_touched t (m_touched m) = true /\ In (eff_choice conf choice) [$"ignore"; $"_ignore"])) ->
    ((r = Ok t' /\ (forall q, file_at fs' q = file_at fs q) /\
      (forall q, is_dir fs' q = is_dir fs q || is_prefix q (location cwd (m_dir m) ++ removelast rest')))
     \/ (exists e, r = Exn e /\ In e [FileExistsError; NotADirectoryError] /\ fs' = fs)) ->
    prepared cwd conf fs m path choice r fs' (set_touched m touched').

Lemma makedirs_exn l : forall n e, makedirs n l = Exn e -> e = FileExistsError \/ e = NotADirectoryError.
Proof.
  induction l as [|x r IH]; intros n e H; cbn in H.
  - destruct n; inversion H; auto.
  - destruct n as [c|es]; [inversion H; auto|].
    destruct (makedirs _ r) as [m'|e'] eqn:E; inversion H; subst. eapply IH; eassumption.
Qed.

Lemma is_dir_prefix fs q l : is_dir fs l = true -> is_prefix q l = true -> is_dir fs q = true.
Proof.
  intros H Hp. apply is_prefix_iff in Hp as [r ->]. unfold is_dir in *. rewrite lookup_app in H.
  destruct (lookup fs q) as [[c|es]|]; [|reflexivity|discriminate].
  destruct r as [|x r]; cbn in H; discriminate.
Qed.

Lemma prepare_spec cwd conf fs m path choice inputs :
  absolute cwd -> absolute (m_dir m) -> touched_ok (m_touched m) ->
  In (eff_choice conf choice) unattended ->
  exists r fs' m', prepare cwd conf fs m path true choice inputs = (r, (fs', m', inputs)) /\
    prepared cwd conf fs m path choice r fs' m'.
Proof.
  intros Hc Hd Hk Hp. unfold prepare.
  destruct (normalize_cases cwd (m_dir m) path Hc Hd) as [[t Ht]|Hx].
  - rewrite Ht. destruct (normalize_ok cwd (m_dir m) path Hc Hd t Ht) as (rest & Hl & _ & Hr).
    rewrite <- requested_eq in Hl by assumption.
    destruct (register_unattended conf choice inputs (m_touched m) t rest Hr Hk Hp)
      as [(H1 & H2 & H3)|(t' & touched' & rest' & H1 & H2 & H3 & H4 & H5 & H6 & H7)].
    + rewrite H3. exists (Exn UserQuitException), fs, m. split; [reflexivity|].
      eapply prep_quit; eassumption.
    + rewrite H1. pose proof H2 as (Hc2 & _ & _ & Hsd). rewrite Hsd.
      assert (Eloc : os_loc cwd (join2 (m_dir m) (join_sep (removelast rest'))) =
                     location cwd (m_dir m) ++ removelast rest').
      { rewrite os_loc_location by assumption.
        assert (Hcl : Forall clean (removelast rest')).
        { destruct rest' as [|x l]; [constructor|].
          rewrite (@app_removelast_last _ (x :: l) []) in Hc2 by discriminate.
          apply Forall_app in Hc2 as [Hc2 _]. exact Hc2. }
        rewrite location_join2 by assumption. rewrite isabs_join_clean by assumption.
        destruct (removelast rest') as [|y l] eqn:E.
        - cbn. rewrite app_nil_r. reflexivity.
        - rewrite split_join by ((apply clean_split; assumption) || discriminate).
          apply walk_clean_app; assumption. }
      rewrite Eloc. destruct (is_dir fs _) eqn:Ed.
      * exists (Ok t'), fs, (set_touched m touched'). split; [reflexivity|].
        eapply prep_ok; try eassumption. left. split; [reflexivity|]. split; [reflexivity|].
        intros q. destruct (is_prefix q _) eqn:Eq; [|rewrite orb_false_r; reflexivity].
        rewrite (is_dir_prefix _ _ _ Ed Eq). reflexivity.
      * destruct (makedirs fs _) as [fs'|e] eqn:Em.
        -- exists (Ok t'), fs', (set_touched m touched'). split; [reflexivity|].
           eapply prep_ok; try eassumption. left. split; [reflexivity|].
           split; [eapply makedirs_file_at; eassumption|eapply makedirs_is_dir; eassumption].
        -- exists (Exn e), fs, (set_touched m touched'). split; [reflexivity|].
           eapply prep_ok; try eassumption. right. exists e. split; [reflexivity|].
           split; [|reflexivity]. destruct (makedirs_exn _ _ _ Em) as [->| ->]; cbn; auto.
  - rewrite Hx. exists (Exn MountException), fs, m. split; [reflexivity|]. apply prep_reject; assumption.
Qed.

(** ** Untracking *)
Lemma remove_first_spec t l l' : remove_first t l = Some l' ->
  exists a u b, l = a ++ u :: b /\ l' = a ++ b /\ t_key u = t_key t /\ (forall v, In v a -> t_key v <> t_key t).
Proof.
  revert l'. induction l as [|x r IH]; intros l' H; [discriminate|]. cbn in H.
  destruct (teq x t) eqn:E.
  - inversion H; subst. exists [], x, l'. split; [reflexivity|]. split; [reflexivity|].
    split; [apply teq_iff; assumption|contradiction].
  - destruct (remove_first t r) as [r'|]; [|discriminate]. inversion H; subst.
    destruct (IH r' eq_refl) as (a & u & b & -> & -> & H1 & H2).
    exists (x :: a), u, b. split; [reflexivity|]. split; [reflexivity|]. split; [assumption|].
    intros v [<-|Hv]; [apply teq_false; assumption|auto].
Qed.
Lemma remove_first_None t l : remove_first t l = None <-> in_touched t l = false.
Proof.
  induction l as [|x r IH]; cbn; [tauto|]. unfold teq at 1 2.
  destruct (key_eq_dec (t_key x) (t_key t)) as [E|E]; destruct (key_eq_dec (t_key t) (t_key x)) as [E'|E'];
    try congruence; cbn.
  - split; discriminate.
  - destruct (remove_first t r); rewrite <- IH; split; congruence.
Qed.

Lemma touched_ok_remove t l l' : touched_ok l -> remove_first t l = Some l' ->
  touched_ok l' /\ in_touched t l' = false /\
  (forall u, In u l' <-> In u l /\ t_key u <> t_key t).
Proof.
  intros [H1 H2] H. apply remove_first_spec in H as (a & u & b & -> & -> & Hu & Ha).
  rewrite map_app in H2. cbn in H2.
  assert (Hnd := NoDup_remove _ _ _ H2). rewrite <- map_app in Hnd. destruct Hnd as [Hnd Hni].
  assert (Hiff : forall v, In v (a ++ b) <-> In v (a ++ u :: b) /\ t_key v <> t_key t).
  { intros v. split.
    - intros Hv. split.
      + apply in_app_or in Hv as [Hv|Hv]; apply in_or_app; [left|right; right]; assumption.
      + intros E. apply Hni. rewrite Hu, <- E. apply in_map. assumption.
    - intros [Hv Hne]. apply in_app_or in Hv as [Hv|[->|Hv]]; [| congruence |]; apply in_or_app; auto. }
  split; [split; [|assumption]|].
  - apply Forall_app in H1 as [H1 H1']. inversion H1'; subst. apply Forall_app; auto.
  - split; [|exact Hiff]. apply in_touched_false. intros v Hv. apply Hiff in Hv as [_ Hv]. exact Hv.
Qed.

Lemma untrack_spec cwd m path : absolute cwd -> absolute (m_dir m) -> touched_ok (m_touched m) ->
  (untrack cwd m path true = Exn MountException /\ normalize cwd (m_dir m) path true = Exn MountException) \/
  (exists t rest m', normalize cwd (m_dir m) path true = Ok t /\ rel_target t rest /\
     requested cwd (m_dir m) path = location cwd (m_dir m) ++ rest /\
     untrack cwd m path true = Ok m' /\ m_dir m' = m_dir m /\ touched_ok (m_touched m') /\
     in_touched t (m_touched m') = false /\
     (forall u, In u (m_touched m') <-> In u (m_touched m) /\ t_key u <> t_key t)).
Proof.
  intros Hc Hd Hk. unfold untrack.
  destruct (normalize_cases cwd (m_dir m) path Hc Hd) as [[t Ht]|Hx].
  - right. rewrite Ht. destruct (normalize_ok cwd (m_dir m) path Hc Hd t Ht) as (rest & Hl & _ & Hr).
    rewrite <- requested_eq in Hl by assumption. exists t, rest.
    destruct (remove_first t (m_touched m)) as [l|] eqn:E.
    + eexists. do 3 (split; [eassumption || reflexivity|]). split; [reflexivity|]. split; [reflexivity|].
      apply (touched_ok_remove _ _ _ Hk E).
    + eexists. do 3 (split; [eassumption || reflexivity|]). split; [reflexivity|]. split; [reflexivity|].
      split; [assumption|]. pose proof E as E'. apply remove_first_None in E'. split; [assumption|].
      intros u. split; [|tauto]. intros Hu. split; [assumption|].
      rewrite in_touched_false in E'. auto.
  - left. rewrite Hx. auto.
Qed.

Lemma mount_step_ok cwd conf fs m o : absolute cwd -> absolute (m_dir m) -> touched_ok (m_touched m) ->
  op_policy unattended conf o ->
  let '((fs', m'), _) := mount_step cwd conf (fs, m) o in
  m_dir m' = m_dir m /\ touched_ok (m_touched m').
Proof.
  intros Hc Hd Hk Hp. destruct o as [p c|p|p]; cbn [mount_step].
  - destruct (prepare_spec cwd conf fs m p c [] Hc Hd Hk Hp) as (r & fs' & m' & E & H). rewrite E.
    assert (Hm : m_dir m' = m_dir m /\ touched_ok (m_touched m')) by (destruct H; cbn; auto).
    destruct r; exact Hm.
  - unfold mount_remove.
    destruct (untrack_spec cwd m p Hc Hd Hk) as [[E _]|(t & rest & m' & _ & _ & _ & E & H1 & H2 & _)]; rewrite E.
    + auto.
    + destruct (lookup fs _) as [[c|[|e es]]|]; auto.
  - destruct (untrack_spec cwd m p Hc Hd Hk) as [[E _]|(t & rest & m' & _ & _ & _ & E & H1 & H2 & _)]; rewrite E; auto.
Qed.

Lemma mount_run_ok cwd conf ops : forall fs m, absolute cwd -> absolute (m_dir m) -> touched_ok (m_touched m) ->
  Forall (op_policy unattended conf) ops ->
  let '((fs', m'), _) := mount_run cwd conf (fs, m) ops in
  m_dir m' = m_dir m /\ touched_ok (m_touched m').
Proof.
  induction ops as [|o ops IH]; intros fs m Hc Hd Hk Hp; cbn [mount_run].
  - auto.
  - inversion Hp as [|? ? Ho Hops]; subst. pose proof (mount_step_ok cwd conf fs m o Hc Hd Hk Ho) as H.
    destruct (mount_step cwd conf (fs, m) o) as [[fs1 m1] t]. destruct H as [H1 H2].
    specialize (IH fs1 m1 Hc). rewrite H1 in IH. specialize (IH Hd H2 Hops).
    destruct (mount_run cwd conf (fs1, m1) ops) as [[fs2 m2] ts]. exact IH.
Qed.

Lemma reachable_ok cwd conf dir m : absolute cwd -> absolute dir -> reachable cwd conf dir m ->
  m_dir m = dir /\ touched_ok (m_touched m).
Proof.
  intros Hc Hd (fs0 & c & g & ops & fs & Hp & E).
  pose proof (mount_run_ok cwd conf ops fs0 (new_mount dir c g) Hc Hd) as H.
  specialize (H (conj (Forall_nil _) (NoDup_nil _)) Hp).
  destruct (mount_run cwd conf (fs0, new_mount dir c g) ops) as [[fs' m'] ts]. cbn in E.
  inversion E; subst. exact H.
Qed.

(** prepares with a strict policy return pairwise different places *)
Lemma prepares_distinct cwd conf ops : forall fs m, absolute cwd -> absolute (m_dir m) -> touched_ok (m_touched m) ->
  Forall (op_policy strict conf) ops -> Forall is_prepare ops ->
  let '(_, ts) := mount_run cwd conf (fs, m) ops in
  NoDup (map (place cwd (m_dir m)) ts) /\
  (forall t u, In t ts -> In u (m_touched m) -> place cwd (m_dir m) t <> place cwd (m_dir m) u) /\
  Forall (fun t => exists rest, rel_target t rest) ts.
Proof.
  induction ops as [|o ops IH]; intros fs m Hc Hd Hk Hp Hi; cbn [mount_run].
  - split; [constructor|]. split; [contradiction|constructor].
  - inversion Hp as [|? ? Ho Hops]; subst. inversion Hi as [|? ? Hio Hiops]; subst.
    destruct o as [p c|p|p]; cbn in Hio; try contradiction. cbn [mount_step].
    assert (Ho' : In (eff_choice conf c) unattended) by (destruct Ho as [H|[H|[]]]; [left|right; left]; exact H).
    destruct (prepare_spec cwd conf fs m p c [] Hc Hd Hk Ho') as (r & fs' & m' & E & H). rewrite E.
    destruct H as [Hn|t rest Hn Hr Ht Hq Hl|t rest t' rest' touched' r fs' Hn Hr Hl Hr' Hk' Hrm Hsu Hid Hcase Hres].
    + specialize (IH fs m Hc Hd Hk Hops Hiops).
      destruct (mount_run cwd conf (fs, m) ops) as [s2 ts]. exact IH.
    + specialize (IH fs m Hc Hd Hk Hops Hiops).
      destruct (mount_run cwd conf (fs, m) ops) as [s2 ts]. exact IH.
    + destruct Hcase as [[Htc Hfr]|(_ & _ & _ & _ & Hig)].
      2:{ exfalso. destruct Ho as [H|[H|[]]]; change (policy conf c) with (eff_choice conf c) in H;
          rewrite <- H in Hig; destruct Hig as [Hig|[Hig|[]]]; discriminate Hig. }
      specialize (IH fs' (set_touched m touched') Hc Hd Hk' Hops Hiops). cbn [m_dir set_touched m_touched] in IH.
      destruct (mount_run cwd conf (fs', set_touched m touched') ops) as [s2 ts] eqn:Erun.
      destruct IH as (I1 & I2 & I3).
      assert (Hsub : forall t1 u, In t1 ts -> In u (m_touched m) -> place cwd (m_dir m) t1 <> place cwd (m_dir m) u).
      { intros t1 u H1 H2. apply I2; [assumption|]. rewrite Htc. apply in_or_app; left; assumption. }
      destruct Hres as [(-> & _)|(e & -> & _)].
      * rewrite Erun. split; [|split].
        -- cbn. constructor; [|assumption]. intros Hin. apply in_map_iff in Hin as (t1 & H1 & H2).
           eapply (I2 t1 t'); [assumption| |assumption]. rewrite Htc. apply in_or_app; right; left; reflexivity.
        -- intros t1 u [<-|H1] Hu; [|auto]. intros Ep.
           destruct Hk as [Hk1 _]. rewrite Forall_forall in Hk1. destruct (Hk1 u Hu) as [ru Hru].
           rewrite (place_rel cwd (m_dir m) t' rest' Hd Hr'), (place_rel cwd (m_dir m) u ru Hd Hru) in Ep.
           inversion Ep as [Ep']. apply app_inv_head in Ep'.
           rewrite in_touched_false in Hfr. apply (Hfr u Hu). apply (rel_target_key_inj _ _ _ _ Hru Hr'). congruence.
        -- constructor; [eauto|assumption].
      * rewrite Erun. split; [assumption|]. split; assumption.
Qed.
