(** Where the files of records lie: the effect of [Context.prepare] on an ordinary target. *)
From Coq Require Import List Ascii String Bool Arith ZArith Lia.
From Verif Require Import Base PosixModel FsModel PathModel SerialModel StoreModel StoreFrame StoreMount StoreSpec StoreLocal PathSpec MountSpec DirSpec
     PosixProof FsProof DirProof TargetProof MountProof HistoryProof PathFacts.
Import ListNotations.

Lemma walk_rel here a b : isabs b = false ->
  walk here (split_sep (join2 a b)) = walk (walk here (split_sep a)) (split_sep b).
Proof.
  intros Hb. unfold join2. rewrite Hb. destruct a as [|c r] eqn:Ea; [reflexivity|]. rewrite <- Ea. clear Ea.
  destruct (ends_sep a) eqn:Ee.
  - destruct (ends_sep_split a Ee) as [a' ->]. rewrite <- app_assoc. cbn [app]. rewrite !split_app, !walk_app. reflexivity.
  - rewrite split_app, walk_app. reflexivity.
Qed.
Lemma named_component_eq c : named_component c = not_curdir c.
Proof.
  unfold named_component, not_curdir, nonempty. change ($"") with (@nil ascii). change ($".") with dot.
  destruct (str_eq_dec c []) as [H1|H1], (str_eq_dec c dot) as [H2|H2]; reflexivity.
Qed.
Lemma filter_named l : filter named_component l = filter not_curdir l.
Proof. apply filter_ext. exact named_component_eq. Qed.
Lemma isabs_absolute s : isabs s = false <-> ~ absolute s.
Proof. rewrite absolute_isabs. destruct (isabs s); split; congruence. Qed.
Lemma filter_clean sd : no_dotdot sd -> Forall clean (filter not_curdir (split_sep sd)).
Proof.
  intros Hn. rewrite Forall_forall. intros c Hc. rewrite <- filter_named in Hc. apply filter_In in Hc as [H1 H2].
  unfold named_component in H2. change ($"") with (@nil ascii) in H2. change ($".") with dot in H2.
  repeat split.
  - intros ->. discriminate.
  - intros ->. destruct (str_eq_dec dot []); [discriminate|]. destruct (str_eq_dec dot dot); [discriminate|congruence].
  - intros ->. apply Hn. rewrite components_split. exact H1.
  - pose proof (split_sep_noslash sd) as Hs. rewrite Forall_forall in Hs. apply Hs. assumption.
Qed.
Lemma places_clean t cs : places t cs -> Forall clean cs /\ cs <> [].
Proof.
  intros (sd & nm & _ & _ & Hp & _ & Hn & ->). split; [|destruct (filter _ _); discriminate].
  apply Forall_app. split; [rewrite filter_named, components_split; apply filter_clean; assumption|].
  constructor; [apply plain_clean; assumption|constructor].
Qed.
Lemma walk_places sd nm here : plain nm -> no_dotdot sd ->
  walk here (split_sep (join2 sd nm)) = here ++ filter named_component (components sd) ++ [nm].
Proof.
  intros Hp Hn. apply plain_clean in Hp. pose proof Hp as (H1 & H2 & H3 & H4). rewrite walk_rel by (apply noslash_not_isabs; assumption).
  rewrite (split_noslash nm) by assumption. rewrite (walk_filter here). rewrite (walk_clean_app here (filter not_curdir (split_sep sd))) by (apply filter_clean; assumption).
  rewrite filter_named, components_split. unfold walk. cbn [fold_left]. rewrite walk_step_clean by assumption. rewrite <- app_assoc. reflexivity.
Qed.
Lemma isabs_join2_rel a b : isabs a = false -> isabs b = false -> isabs (join2 a b) = false.
Proof.
  intros Ha Hb. unfold join2. rewrite Hb. destruct a as [|c r]; [assumption|]. destruct (ends_sep _); exact Ha.
Qed.

(** Taking a complete target apart and building it from its path again. *)
Lemma fspath_name t sd nm : t_subdir t = Some sd -> t_name t = Ok nm -> fspath t = Ok (join2 sd nm).
Proof.
  destruct t as [d st su]. cbn. intros -> H. unfold t_name in H. cbn in H. destruct st; [|discriminate]. destruct su; [|discriminate].
  injection H as H. unfold fspath. cbn. rewrite H. reflexivity.
Qed.
Lemma rstrip_snoc s : rstrip_sep (s ++ [sep]) = rstrip_sep s.
Proof.
  induction s as [|c r IH]; [reflexivity|]. cbn [app rstrip_sep]. rewrite IH. reflexivity.
Qed.
Lemma rstrip_all k : rstrip_sep (repeat sep k) = [].
Proof. induction k as [|k IH]; [reflexivity|]. cbn [repeat rstrip_sep]. rewrite IH. destruct (ascii_dec sep sep); [reflexivity|congruence]. Qed.
Lemma path_split_join2 sd n : noslash n ->
  exists h, path_split (join2 sd n) = (h, n) /\
    (sd = [] -> h = []) /\ isabs h = isabs sd /\ path_split (join2 h n) = (h, n) /\
    (forall here, walk here (split_sep h) = walk here (split_sep sd)) /\
    filter not_curdir (split_sep h) = filter not_curdir (split_sep sd).
Proof.
  intros Hn. unfold path_split. pose proof (split_last_sep_join sd n Hn) as H. pose proof (split_last_sep_app (join2 sd n)) as Ha.
  pose proof (split_last_sep_head (join2 sd n)) as Hh.
  destruct (split_last_sep (join2 sd n)) as [h t]. cbn [fst snd] in *. subst t.
  (* h is sd, possibly with a slash added *)
  assert (Hx : h = sd \/ (sd <> [] /\ h = sd ++ [sep])).
  { unfold join2 in Ha. rewrite (noslash_not_isabs n Hn) in Ha. destruct sd as [|c s] eqn:Es.
    - left. apply (f_equal (@List.length ascii)) in Ha. rewrite app_length in Ha. destruct h; [reflexivity|cbn in Ha; lia].
    - rewrite <- Es in *. destruct (ends_sep sd).
      + left. apply app_inv_tail in Ha. assumption.
      + right. split; [congruence|]. change (sep :: n) with ([sep] ++ n) in Ha. rewrite app_assoc in Ha. apply app_inv_tail in Ha. assumption. }
  assert (Fs : forall l, filter not_curdir (split_sep (l ++ [sep])) = filter not_curdir (split_sep l)).
  { intros l. rewrite split_app. cbn [split_sep]. rewrite filter_app. cbn. rewrite app_nil_r. reflexivity. }
  assert (Hi : isabs h = isabs sd).
  { destruct Hx as [->|[Hne ->]]; [reflexivity|]. destruct sd; [congruence|reflexivity]. }
  assert (Hf : filter not_curdir (split_sep h) = filter not_curdir (split_sep sd)).
  { destruct Hx as [->|[Hne ->]]; [reflexivity|]. apply Fs. }
  assert (Hz : sd = [] -> h = []) by (intros ->; destruct Hx as [->|[Hne _]]; [reflexivity|congruence]).
  assert (Hs : all_sep h = false ->
    isabs (rstrip_sep h) = isabs h /\ filter not_curdir (split_sep (rstrip_sep h)) = filter not_curdir (split_sep h)).
  { intros Eall. destruct (rstrip_sep_app h) as [j Hr].
    assert (Hne : rstrip_sep h <> []) by (intros Hx0; apply rstrip_sep_nil in Hx0; congruence).
    split.
    - rewrite Hr at 2. destruct (rstrip_sep h); [congruence|reflexivity].
    - rewrite Hr at 2. clear - Fs. induction j as [|j IH]; [cbn; rewrite app_nil_r; reflexivity|].
      replace (rstrip_sep h ++ repeat sep (S j)) with ((rstrip_sep h ++ repeat sep j) ++ [sep]); [rewrite Fs; exact IH|].
      rewrite <- app_assoc. f_equal. change [sep] with (repeat sep 1). rewrite <- repeat_app. rewrite Nat.add_1_r. reflexivity. }
  destruct (all_sep h) eqn:Eall.
  - exists h. split; [reflexivity|]. split; [assumption|]. split; [assumption|]. split; [|split; [|assumption]].
    { assert (Hj : join2 h n = h ++ n).
      { unfold join2. rewrite (noslash_not_isabs n Hn). destruct h as [|c r]; [reflexivity|]. destruct Hh as [Hh|Hh]; [discriminate|]. rewrite Hh. reflexivity. }
      unfold path_split. rewrite Hj, split_last_sep_uniq, Eall by assumption. reflexivity. }
    intros here. rewrite walk_filter, Hf, <- walk_filter. reflexivity.
  - specialize (Hs eq_refl) as [Hs1 Hs2]. exists (rstrip_sep h). split; [reflexivity|].
    split; [intros Hsd; rewrite (Hz Hsd); reflexivity|]. split; [congruence|]. split; [|split; [|congruence]].
    { assert (Hne : rstrip_sep h <> []) by (intros Hx0; apply rstrip_sep_nil in Hx0; congruence).
      assert (Hj : join2 (rstrip_sep h) n = (rstrip_sep h ++ [sep]) ++ n).
      { unfold join2. rewrite (noslash_not_isabs n Hn). pose proof (rstrip_sep_ends h) as He. destruct (rstrip_sep h); [congruence|]. rewrite He.
        rewrite <- app_assoc. reflexivity. }
      assert (He : ends_sep (rstrip_sep h ++ [sep]) = true).
      { clear. induction (rstrip_sep h) as [|a l IH]; [reflexivity|]. cbn. destruct (l ++ [sep]) eqn:El; [destruct l; discriminate|]. exact IH. }
      unfold path_split. rewrite Hj, split_last_sep_uniq by auto.
      assert (Hr : rstrip_sep (rstrip_sep h ++ [sep]) = rstrip_sep h) by (rewrite rstrip_snoc; apply rstrip_sep_id, rstrip_sep_ends).
      destruct (all_sep (rstrip_sep h ++ [sep])) eqn:Ea; [|rewrite Hr; reflexivity].
      exfalso. apply all_sep_repeat in Ea as [k Hk]. rewrite Hk in Hr. clear - Hr Hne.
      assert (Hz : rstrip_sep (repeat sep k) = []) by (apply rstrip_all). congruence. }
    intros here. rewrite walk_filter, Hs2, Hf, <- walk_filter. reflexivity.
Qed.
Lemma path_split_again p n : noslash n -> path_split (join2 (fst (path_split p)) n) = (fst (path_split p), n).
Proof.
  intros Hn. unfold path_split at 2 3. pose proof (split_last_sep_head p) as Hh.
  destruct (split_last_sep p) as [h t]. cbn [fst snd] in *. destruct (all_sep h) eqn:Eall; cbn [fst].
  - assert (Hj : join2 h n = h ++ n).
    { unfold join2. rewrite (noslash_not_isabs n Hn). destruct h as [|c r]; [reflexivity|]. destruct Hh as [Hh|Hh]; [discriminate|]. rewrite Hh. reflexivity. }
    unfold path_split. rewrite Hj, split_last_sep_uniq, Eall by assumption. reflexivity.
  - assert (Hne : rstrip_sep h <> []) by (intros Hx0; apply rstrip_sep_nil in Hx0; congruence).
    assert (Hj : join2 (rstrip_sep h) n = (rstrip_sep h ++ [sep]) ++ n).
    { unfold join2. rewrite (noslash_not_isabs n Hn). pose proof (rstrip_sep_ends h) as He. destruct (rstrip_sep h); [congruence|]. rewrite He.
      rewrite <- app_assoc. reflexivity. }
    assert (He : ends_sep (rstrip_sep h ++ [sep]) = true).
    { clear. induction (rstrip_sep h) as [|a l IH]; [reflexivity|]. cbn. destruct (l ++ [sep]) eqn:El; [destruct l; discriminate|]. exact IH. }
    unfold path_split. rewrite Hj, split_last_sep_uniq by auto.
    assert (Hr : rstrip_sep (rstrip_sep h ++ [sep]) = rstrip_sep h) by (rewrite rstrip_snoc; apply rstrip_sep_id, rstrip_sep_ends).
    destruct (all_sep (rstrip_sep h ++ [sep])) eqn:Ea; [|rewrite Hr; reflexivity].
    exfalso. apply all_sep_repeat in Ea as [k Hk]. rewrite Hk in Hr.
    assert (Hz : rstrip_sep (repeat sep k) = []) by (apply rstrip_all). congruence.
Qed.
Lemma no_dotdot_filter a b : filter not_curdir (split_sep a) = filter not_curdir (split_sep b) -> no_dotdot b -> no_dotdot a.
Proof.
  intros Hf Hb Ha. apply Hb. rewrite components_split in *.
  assert (Hi : In ($"..") (filter not_curdir (split_sep a))) by (apply filter_In; split; [assumption|reflexivity]).
  rewrite Hf in Hi. apply filter_In in Hi. tauto.
Qed.
Lemma places_from_path t cs s : places t cs -> fspath t = Ok s -> places (from_path s) cs.
Proof.
  intros (sd & nm & Hd & Hn & Hp & Ha & Hdd & ->) Hs. rewrite (fspath_name t sd nm Hd Hn) in Hs. injection Hs as <-.
  pose proof Hp as Hp0. apply plain_clean in Hp0. destruct Hp0 as (_ & _ & _ & Hns).
  destruct (path_split_join2 sd nm Hns) as (h & Hh & _ & Hi & _ & _ & Hf).
  exists h, nm. split; [|split; [|split; [assumption|split; [|split]]]].
  - unfold from_path. rewrite Hh. destruct (splitext nm). reflexivity.
  - apply from_path_name; assumption.
  - apply isabs_absolute. rewrite Hi. apply isabs_absolute. assumption.
  - eapply no_dotdot_filter; eassumption.
  - rewrite !filter_named, !components_split, Hf. reflexivity.
Qed.
(** The target with another file name. *)
Lemma places_rename t cs n t' : places t cs -> plain n -> update t None None None (Some n) = Ok t' ->
  places t' (removelast cs ++ [n]).
Proof.
  intros (sd & nm & Hd & Hn & Hp & Ha & Hdd & ->) Hpn Hu. rewrite removelast_last.
  unfold update, Target in Hu. pose proof (splitext_app n) as Hs. destruct (splitext n) as [st su]. cbn [fst snd bind] in *.
  injection Hu as <-. destruct t as [d0 s0 x0]. cbn in Hd. subst d0. exists sd, n.
  cbn. split; [reflexivity|]. split; [|auto]. unfold t_name. cbn. rewrite Hs. reflexivity.
Qed.

Section Place.
Variable E : senv.
Variable i : nat.
Variable D0 : str.
Hypothesis Hcwd : absolute (s_cwd E).
Hypothesis Hdir : absolute D0.
Let D := location (s_cwd E) D0.
Notation ok := (mnt_ok i D0).

Lemma placed comps cx t cs : sctx i comps cx -> places t cs ->
  exists a p, ctx_absolute cx t = Ok a /\ fspath a = Ok p /\ requested (s_cwd E) D0 p = D ++ comps ++ cs.
Proof.
  intros (Hi & Hs & Hc) (sd & nm & Hd & Hn & Hp & Ha & Hdd & ->). pose proof Hp as (Hp1 & _). pose proof Hp as Hp0. apply plain_clean in Hp0.
  destruct Hp0 as (_ & _ & _ & Hns). unfold ctx_absolute. rewrite Hd, Hs. unfold update, Target. cbn [bind].
  destruct t as [d0 st su]. cbn in Hd. subst d0. unfold t_name in Hn. cbn in Hn. destruct st as [a|]; [|discriminate].
  destruct su as [b|]; [|discriminate]. injection Hn as Hn. eexists _, _. split; [reflexivity|]. cbn. split; [reflexivity|].
  rewrite Hn. rewrite requested_join2, location_join2_any. apply isabs_absolute in Ha.
  pose proof (isabs_join_clean comps Hc) as Hjc.
  rewrite isabs_join2_rel by (first [apply noslash_not_isabs; assumption|apply isabs_join2_rel; assumption]).
  rewrite walk_rel by (apply noslash_not_isabs; assumption). rewrite walk_rel by assumption.
  assert (Hw : walk (location (s_cwd E) D0) (split_sep (join_sep comps)) = D ++ comps).
  { destruct comps as [|x r] eqn:Ec; [cbn; rewrite app_nil_r; reflexivity|]. rewrite <- Ec in *.
    rewrite split_join; [apply walk_clean_app; assumption|apply clean_split; assumption|rewrite Ec; discriminate]. }
  rewrite Hw. rewrite <- walk_rel by (apply noslash_not_isabs; assumption). rewrite walk_places by assumption.
  rewrite <- app_assoc. reflexivity.
Qed.

Lemma rel_target_unique t r s : rel_target t r -> rel_target t s -> r = s.
Proof. intros Hr Hs. apply (rel_target_key_inj t r t s Hr Hs). reflexivity. Qed.
Lemma register_nonnil conf ch inp touched t rest t' touched' inp' rest' :
  rel_target t rest -> touched_ok touched -> In (eff_choice conf ch) unattended ->
  register conf ch inp touched t = Ok (t', touched', inp') -> rel_target t' rest' -> (rest <> [] -> rest' <> []) /\ (eff_choice conf ch <> $"auto" -> rest' = rest).
Proof.
  intros Hr Hk Hc Hreg Hr'. pose proof Hr as (_ & Hn & _ & _).
  destruct (in_touched t touched) eqn:Et.
  - destruct Hc as [Hc|[Hc|Hc]].
    + destruct (register_auto_touched conf ch inp touched t Hn Et (eq_sym Hc)) as (sd & st & su & j & -> & Hs & Hf & Hreg').
      destruct (cand_rel sd st su rest j Hr Hs) as (nm & Hrel & _). rewrite Hreg' in Hreg. injection Hreg as <- _ _.
      rewrite (rel_target_unique _ _ _ Hr' Hrel). split; [destruct (removelast rest); discriminate|congruence].
    + rewrite register_quit_touched in Hreg; [discriminate|assumption|assumption|]. rewrite <- Hc. right; left; reflexivity.
    + rewrite register_ignore_touched in Hreg; [injection Hreg as <- _ _; rewrite (rel_target_unique _ _ _ Hr' Hr); auto|assumption|assumption|].
      destruct Hc as [<-|[<-|[]]]; [right; left|right; right; left]; reflexivity.
  - rewrite register_fresh in Hreg by assumption. injection Hreg as <- _ _. rewrite (rel_target_unique _ _ _ Hr' Hr). auto.
Qed.

(** What [Mount.prepare] of path [p] did when it returned: [rest] was asked for, [rest'] was given. *)
Definition gave (p : str) (ch : option str) (w : world) (u : target) (rest rest' : list str) (w' : world) : Prop :=
  exists m touched fs', nth_error (w_mounts w) i = Some m /\
  requested (s_cwd E) D0 p = D ++ rest /\ rel_target u rest' /\ removelast rest' = removelast rest /\
  ((rest <> [] -> rest' <> []) /\ (eff_choice (s_retouch E) ch <> $"auto" -> rest' = rest)) /\
  w' = mkWorld fs' (set_nth i (set_touched m touched) (w_mounts w)) (w_inputs w) (w_uuid w) (EvPrepare i p :: w_log w) /\
  (forall q, file_at fs' q = file_at (w_fs w) q) /\
  (forall q, is_dir fs' q = is_dir (w_fs w) q || is_prefix q (D ++ removelast rest')) /\
  D = comps_cp D0 /\
  ((touched = m_touched m ++ [u] /\ in_touched u (m_touched m) = false) \/
   (touched = m_touched m /\ rest' = rest /\ in_touched u (m_touched m) = true /\
     In (eff_choice (s_retouch E) ch) [$"ignore"; $"_ignore"])) /\
  ((forall v s, In v (m_touched m) -> rel_target v s -> s <> rest) -> rest' = rest).
Lemma in_touched_rel t rest l : rel_target t rest -> Forall (fun t => exists rest, rel_target t rest) l ->
  in_touched t l = true <-> exists v, In v l /\ rel_target v rest.
Proof.
  intros Ht Hl. unfold in_touched. rewrite existsb_exists. split.
  - intros (v & Hv & He). exists v. split; [assumption|]. rewrite Forall_forall in Hl. destruct (Hl v Hv) as [s Hs].
    apply teq_iff in He. apply (rel_target_key_inj t rest v s Ht Hs) in He. subst s. assumption.
  - intros (v & Hv & Hs). exists v. split; [assumption|]. apply teq_iff. apply (rel_target_key_inj t rest v rest Ht Hs). reflexivity.
Qed.
Lemma m_prepare_gave p ch w u w' : ok w -> In (eff_choice (s_retouch E) ch) unattended ->
  m_prepare E i p ch w = (Ok u, w') -> exists rest rest', gave p ch w u rest rest' w'.
Proof.
  intros [(m & Hm & Hd & Ht) Hw] Hch Em. apply m_prepare_inv in Em.
  inversion Em as [| |m1 r fs m' inp Hm1 Hp Hr1 Hw1]; subst r.
  rewrite Hm in Hm1. injection Hm1 as <-.
  assert (Hda : absolute (m_dir m)) by (rewrite Hd; assumption).
  destruct (prepare_spec (s_cwd E) (s_retouch E) (w_fs w) m p ch (w_inputs w) Hcwd Hda Ht Hch) as (r1 & fs1 & m2 & Hq & Hs1).
  rewrite Hp in Hq. injection Hq as Hq1 Hq2 Hq3 Hq4. subst r1 fs1 m2 inp.
  inversion Hs1 as [| |t0 rest t' rest' touched' r0 fs' K1 K2 K3 K4 K5 K6 K7 K8 K9 K10 K11 K12 K13]; subst r0 fs' m'.
  destruct K10 as [(K10 & K14 & K15)|(e & K10 & _)]; [|discriminate]. injection K10 as K10. subst t'.
  exists rest, rest', m, touched', fs. rewrite Hd in K1, K3, K15.
  split; [assumption|]. split; [assumption|]. split; [assumption|]. split; [assumption|]. split; [|split; [congruence|]].
  - unfold prepare in Hp. rewrite Hd, K1 in Hp.
    destruct (register (s_retouch E) ch (w_inputs w) (m_touched m) t0) as [[[t1 tt1] i1]|] eqn:Er; [|discriminate].
    assert (t1 = u). { destruct (t_subdir t1); [|discriminate]. destruct (is_dir _ _); [congruence|]. destruct (makedirs _ _); congruence. }
    subst t1. eapply register_nonnil; [exact K2|exact Ht|exact Hch|exact Er|assumption].
  - split; [assumption|]. split; [assumption|]. split.
    + unfold normalize, mount_abspath in K1. destruct (contains (s_cwd E) D0 (join2 D0 p)) as [[|]|] eqn:Ec; cbn [bind] in K1; try discriminate.
      apply contains_true in Ec; [|assumption|assumption]. apply Ec.
    + split.
      * destruct K9 as [K9|(K9 & K16 & K17 & K18 & K19)]; [left; exact K9|right]. subst t0. auto.
      * intros Hnone. destruct (in_touched t0 (m_touched m)) eqn:Et; [|apply K8; reflexivity].
        apply (in_touched_rel t0 rest) in Et; [|assumption|apply Ht]. destruct Et as (v & Hv & Hvs). exfalso. eapply Hnone; eauto.
Qed.

Lemma ctx_prepare_gave comps cx t cs ch w local nt w' : ok w -> sctx i comps cx -> places t cs ->
  In (eff_choice (s_retouch E) ch) unattended -> ctx_prepare E cx t ch w = (Ok (local, nt), w') ->
  exists p u n', plain n' /\ gave p ch w u (comps ++ cs) (comps ++ removelast cs ++ [n']) w' /\
    sctx i (comps ++ removelast cs) local /\ t_subdir nt = Some [] /\ t_name nt = Ok n' /\ ok w' /\
    (forall w2, ok w2 -> ctx_path E local nt w2 = (Ok (D ++ comps ++ removelast cs ++ [n']), w2)).
Proof.
  intros Hok Hs Hp Hch H. destruct (placed comps cx t cs Hs Hp) as (a & p & Ha & Hf & Hreq).
  pose proof (places_clean t cs Hp) as [Hcl Hne].
  assert (Hok' : ok w').
  { unfold ctx_prepare, mbind, lift in H. rewrite Ha, Hf in H. pose proof Hs as (Hi & _). rewrite Hi in H.
    destruct (m_prepare E i p ch w) as [[u|e] w1] eqn:Em; [|discriminate].
    assert (w1 = w').
    { destruct (t_name u); [|discriminate]. destruct (t_subdir u); [|discriminate]. destruct (Target _ _ _ _); [|discriminate]. unfold ret in H. congruence. }
    subst w1. assert (Ho : only i D0 (fun _ => True) w w').
    { eapply only_prepare; [exact Hcwd|exact Hdir|intros _; exact Hch|exact Em]. }
    apply Ho. assumption. }
  destruct (ctx_prepare_inv E i D0 Hcwd Hdir (fun _ => True) (fun _ _ => I) comps cx t ch w local nt w' Hok Hs Hch H) as (a' & p' & u & rest0 & Ha' & Hf' & Hm & Hr & Hnd & Hsl & Hnn).
  rewrite Ha in Ha'. injection Ha' as <-. rewrite Hf in Hf'. injection Hf' as <-.
  destruct (m_prepare_gave p ch w u w' Hok Hch Hm) as (rest & rest' & Hg).
  pose proof Hg as (m & touched & fs' & G1 & G2 & G3 & G4 & G5 & G6).
  assert (rest = comps ++ cs) by (rewrite Hreq in G2; apply app_inv_head in G2; congruence). subst rest.
  assert (rest0 = rest') by (eapply rel_target_unique; eassumption). subst rest0.
  assert (Hrne : rest' <> []). { apply G5. destruct comps; [assumption|discriminate]. }
  destruct (exists_last Hrne) as (l & n' & Hl). subst rest'. rewrite removelast_last in *.
  rewrite removelast_app in G4 by assumption. subst l.
  exists p, u, n'. rewrite <- !app_assoc in *.
  assert (Hpn : plain n').
  { destruct G3 as (G3 & _). rewrite !Forall_app in G3. destruct G3 as (_ & _ & G3). inversion G3 as [|? ? Hx _]; subst.
    destruct Hx as (X1 & X2 & X3 & X4). repeat split; assumption. }
  assert (Hn' : match comps ++ removelast cs ++ [n'] with [] => dot | _ => last (comps ++ removelast cs ++ [n']) [] end = n').
  { rewrite app_assoc. destruct ((comps ++ removelast cs) ++ [n']) eqn:El; [destruct (comps ++ removelast cs); discriminate|].
    rewrite <- El. apply last_last. }
  rewrite Hn' in Hnn.
  assert (Hsl' : sctx i (comps ++ removelast cs) local).
  { destruct (comps ++ removelast cs) eqn:El; [|exact Hsl]. apply app_eq_nil in El as [-> _]. exact Hsl. }
  split; [assumption|]. split; [exact Hg|]. split; [exact Hsl'|]. split; [assumption|]. split; [assumption|]. split; [assumption|].
  intros w2 [(m2 & Hm2 & Hd2 & _) _].
  rewrite (ctx_path_loc E Hcwd i _ local nt n' w2 m2 Hsl' Hnd Hnn (or_introl (plain_clean n' Hpn)) Hm2).
  unfold last_comp. destruct (str_eq_dec n' dot) as [->|]; [destruct Hpn as (_ & Hx & _); exfalso; apply Hx; reflexivity|].
  rewrite Hd2, <- !app_assoc. reflexivity.
Qed.

Lemma m_prepare_succeeds p ch w rest : s_limit E = None -> ok w -> In (eff_choice (s_retouch E) ch) unattended ->
  eff_choice (s_retouch E) ch <> $"quit" -> D = comps_cp D0 -> requested (s_cwd E) D0 p = D ++ rest ->
  (forall q, is_prefix q (D ++ removelast rest) = true -> file_at (w_fs w) q = None) ->
  exists u w', m_prepare E i p ch w = (Ok u, w').
Proof.
  intros Hl [(m & Hm & Hd & Ht) Hw] Hch Hq HD Hreq Hfree. unfold m_prepare. rewrite op_free by assumption.
  cbn [logged w_mounts w_fs w_inputs]. rewrite Hm.
  assert (Hda : absolute (m_dir m)) by (rewrite Hd; assumption).
  destruct (prepare_spec (s_cwd E) (s_retouch E) (w_fs w) m p ch (w_inputs w) Hcwd Hda Ht Hch) as (r1 & fs1 & m2 & Hp & Hs1).
  rewrite Hp. destruct Hs1 as [Hx|t0 rest0 K1 K2 K3 K4 K5|t0 rest0 t' rest' touched' r0 fs' K1 K2 K3 K4 K5 K6 K7 K8 K9 K10].
  - exfalso. unfold normalize, mount_abspath in Hx. rewrite Hd, contains_eq in Hx by assumption.
    rewrite <- requested_join2, Hreq, HD in Hx.
    assert (Hpre : is_prefix (comps_cp D0) (comps_cp D0 ++ rest) = true) by (apply is_prefix_iff; eexists; reflexivity).
    rewrite Hpre in Hx. cbn [bind] in Hx.
    destruct (normalize_cases (s_cwd E) D0 p Hcwd Hdir) as [[t Hn]|Hn]; unfold normalize, mount_abspath in Hn;
      rewrite contains_eq, <- requested_join2, Hreq, HD, Hpre in Hn by assumption; cbn [bind] in Hn.
    + rewrite Hn in Hx. discriminate.
    + assert (Hc : contains (s_cwd E) D0 (join2 D0 p) = Ok true) by (rewrite contains_eq, <- requested_join2, Hreq, HD, Hpre by assumption; reflexivity).
      apply contains_true in Hc as (_ & rr & H1 & H2); [|assumption|assumption].
      rewrite (relpath_below (s_cwd E) _ D0 rr) in Hn;
        [discriminate|assumption|apply absolute_nonnil; assumption|apply join2_nonnil; assumption|assumption|assumption].
  - exfalso. auto.
  - destruct K10 as [(-> & _)|(e & -> & He & ->)]; [eauto|]. exfalso.
    unfold prepare in Hp. rewrite K1 in Hp.
    destruct (register (s_retouch E) ch (w_inputs w) (m_touched m) t0) as [[[t1 tt1] i1]|] eqn:Er.
      destruct (register_unattended (s_retouch E) ch (w_inputs w) (m_touched m) t0 rest0 K2 Ht Hch) as [(_ & Hqq & _)|(t2 & tt2 & rest2 & R1 & R2 & R3 & R4 & _)]; [auto|].
      rewrite Er in R1. injection R1 as <- <- _. pose proof R2 as (Hc2 & _ & _ & Hsd). rewrite Hsd in Hp.
      assert (Eloc : os_loc (s_cwd E) (join2 (m_dir m) (join_sep (removelast rest2))) = D ++ removelast rest).
      { rewrite os_loc_location by assumption. rewrite Hd, location_sub.
        - rewrite R4. rewrite Hd, Hreq in K3. apply app_inv_head in K3. rewrite K3. reflexivity.
        - destruct rest2 as [|x l]; [constructor|]. rewrite (@app_removelast_last _ (x :: l) []) in Hc2 by discriminate.
          apply Forall_app in Hc2 as [Hc2 _]. exact Hc2. }
      rewrite Eloc in Hp. destruct (is_dir _ _); [discriminate|].
      destruct (makedirs_ok _ _ Hfree) as [n' Hn']. rewrite Hn' in Hp. discriminate.
    + destruct (register_unattended (s_retouch E) ch (w_inputs w) (m_touched m) t0 rest0 K2 Ht Hch) as [(_ & Hqq & _)|(t2 & tt2 & rest2 & R1 & _)]; [auto|congruence].
Qed.
Lemma ctx_prepare_succeeds comps cx t cs ch w : s_limit E = None -> D = comps_cp D0 -> ok w -> sctx i comps cx -> places t cs ->
  In (eff_choice (s_retouch E) ch) unattended -> eff_choice (s_retouch E) ch <> $"quit" ->
  (forall q, is_prefix q (D ++ comps ++ removelast cs) = true -> file_at (w_fs w) q = None) ->
  exists local nt w', ctx_prepare E cx t ch w = (Ok (local, nt), w').
Proof.
  intros Hl HD Hok Hs Hp Hu Hnq Hfree. destruct (placed comps cx t cs Hs Hp) as (a & p & Ha & Hf & Hreq).
  pose proof (places_clean t cs Hp) as [Hcl Hne].
  destruct (m_prepare_succeeds p ch w (comps ++ cs) Hl Hok Hu) as (u & w' & Hm); [assumption|assumption|assumption| |].
  { rewrite removelast_app by assumption. assumption. }
  destruct (m_prepare_gave p _ w u w' Hok Hu Hm) as (rest & rest' & Hg).
  pose proof Hg as (m & touched & fs' & G1 & G2 & G3 & G4 & G5 & G6 & G7 & G8).
  pose proof (rel_target_name _ _ G3) as Hn. pose proof G3 as (_ & _ & _ & Hsd).
  destruct (splitext_name (match rest' with [] => dot | _ => last rest' [] end)) as (nt & N1 & N2 & N3).
  exists (ctx_join cx (join_sep (removelast rest'))), nt, w'.
  unfold ctx_prepare, mbind, lift. rewrite Ha, Hf. pose proof Hs as (Hi & _). rewrite Hi, Hm, Hn, Hsd, N1. reflexivity.
Qed.
Lemma read_place_dirs comps cx t cs w : s_limit E = None -> D = comps_cp D0 -> ok w -> sctx i comps cx -> places t cs ->
  (forall q, is_prefix q (D ++ comps ++ removelast cs) = true -> file_at (w_fs w) q = None) ->
  exists local nt w', ctx_prepare E cx t (Some ($"_ignore")) w = (Ok (local, nt), w') /\
    sctx i (comps ++ removelast cs) local /\ ok w' /\ (forall q, file_at (w_fs w') q = file_at (w_fs w) q) /\
    (forall q, is_dir (w_fs w') q = is_dir (w_fs w) q || is_prefix q (D ++ comps ++ removelast cs)) /\
    (forall w2, ok w2 -> ctx_path E local nt w2 = (Ok (D ++ comps ++ cs), w2)).
Proof.
  intros Hl HD Hok Hs Hp Hfree. destruct (placed comps cx t cs Hs Hp) as (a & p & Ha & Hf & Hreq).
  assert (Hu : In (eff_choice (s_retouch E) (Some ($"_ignore"))) unattended) by (right; right; right; left; reflexivity).
  pose proof (places_clean t cs Hp) as [Hcl Hne].
  destruct (m_prepare_succeeds p (Some ($"_ignore")) w (comps ++ cs) Hl Hok Hu) as (u & w' & Hm); [discriminate|assumption|assumption| |].
  { rewrite removelast_app by assumption. assumption. }
  destruct (m_prepare_gave p _ w u w' Hok Hu Hm) as (rest & rest' & Hg).
  pose proof Hg as (m & touched & fs' & G1 & G2 & G3 & G4 & G5 & G6 & G7 & G8).
  pose proof (rel_target_name _ _ G3) as Hn. pose proof G3 as (_ & _ & _ & Hsd).
  destruct (splitext_name (match rest' with [] => dot | _ => last rest' [] end)) as (nt & N1 & N2 & N3).
  assert (Hcp : ctx_prepare E cx t (Some ($"_ignore")) w = (Ok (ctx_join cx (join_sep (removelast rest')), nt), w')).
  { unfold ctx_prepare, mbind, lift. rewrite Ha, Hf. pose proof Hs as (Hi & _). rewrite Hi, Hm, Hn, Hsd, N1. reflexivity. }
  eexists _, _, w'. split; [exact Hcp|].
  destruct (ctx_prepare_gave comps cx t cs (Some ($"_ignore")) w _ _ w' Hok Hs Hp Hu Hcp) as (p2 & u2 & n' & Hpn & Hg2 & P1 & P2 & P3 & P4 & P5).
  pose proof Hg2 as (m3 & tt3 & fs2 & _ & _ & _ & _ & (_ & Hsame) & Hw' & Hfs & Hdi & _).
  split; [exact P1|]. split; [exact P4|]. split; [rewrite Hw'; exact Hfs|]. split.
  { intros q. rewrite Hw'. cbn [w_fs]. rewrite Hdi. rewrite !app_assoc, removelast_last, <- !app_assoc. reflexivity. }
  assert (Hx : comps ++ removelast cs ++ [n'] = comps ++ cs) by (apply Hsame; discriminate). intros w2 H2. rewrite (P5 w2 H2), Hx. reflexivity.
Qed.
Lemma read_place comps cx t cs w : s_limit E = None -> D = comps_cp D0 -> ok w -> sctx i comps cx -> places t cs ->
  (forall q, is_prefix q (D ++ comps ++ removelast cs) = true -> file_at (w_fs w) q = None) ->
  exists local nt w', ctx_prepare E cx t (Some ($"_ignore")) w = (Ok (local, nt), w') /\
    sctx i (comps ++ removelast cs) local /\ ok w' /\ (forall q, file_at (w_fs w') q = file_at (w_fs w) q) /\
    (forall w2, ok w2 -> ctx_path E local nt w2 = (Ok (D ++ comps ++ cs), w2)).
Proof.
  intros H1 H2 H3 H4 H5 H6. destruct (read_place_dirs comps cx t cs w H1 H2 H3 H4 H5 H6) as (a & b & c & K1 & K2 & K3 & K4 & _ & K5).
  exists a, b, c. auto.
Qed.
(** Above a file there is no other file. *)
Lemma file_free fs l x c : file_at fs (l ++ [x]) = Some c -> forall q, is_prefix q l = true -> file_at fs q = None.
Proof.
  intros H q Hq. apply is_prefix_iff in Hq as [r ->]. unfold file_at in *. rewrite <- app_assoc, lookup_app in H.
  destruct (lookup fs q) as [[|]|]; try reflexivity. destruct (r ++ [x]) eqn:Er; [destruct r; discriminate|]. discriminate.
Qed.
End Place.
