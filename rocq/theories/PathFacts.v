(** Lemmas behind the statements of PropsPath.v that need more than one line. *)
From Coq Require Import List Ascii String Bool Arith NArith Lia.
From Verif Require Import Base PosixModel FsModel PathModel PathSpec DirSpec MountSpec
     PosixProof FsProof TargetProof MountProof HistoryProof DirProof.
Import ListNotations.

Lemma location_join2_any cwd a b :
  location cwd (join2 a b) = if isabs b then location cwd b else walk (location cwd a) (split_sep b).
Proof.
  destruct (isabs a) eqn:Ha.
  - apply location_join2. apply absolute_isabs; assumption.
  - unfold join2. destruct (isabs b) eqn:Eb; [reflexivity|].
    destruct a as [|c r] eqn:Ea.
    + rewrite !location_eq, Eb. reflexivity.
    + rewrite <- Ea in *. assert (Hn : a <> []) by (rewrite Ea; discriminate). clear Ea.
      assert (Habs : forall s, isabs (a ++ s) = isabs a) by (intros s; destruct a; [congruence|reflexivity]).
      destruct (ends_sep a) eqn:Ee.
      * rewrite !location_eq, Habs, Ha. destruct (ends_sep_split a Ee) as [a' ->].
        rewrite <- app_assoc. cbn [app]. rewrite !split_app, !walk_app. reflexivity.
      * rewrite !location_eq, Habs, Ha, split_app, walk_app. reflexivity.
Qed.

Lemma requested_join2 cwd dir p : requested cwd dir p = location cwd (join2 dir p).
Proof.
  rewrite location_join2_any. unfold requested. rewrite components_split.
  unfold isabs. change "/"%char with sep. destruct p as [|c r]; [reflexivity|].
  destruct (ascii_dec c sep) as [->|]; [|reflexivity].
  rewrite location_eq. cbn [isabs]. destruct (ascii_dec sep sep); [reflexivity|congruence].
Qed.

Lemma requested_os cwd dir p : absolute cwd -> os_loc cwd (join2 dir p) = requested cwd dir p.
Proof. intros Hc. rewrite os_loc_location by assumption. symmetry. apply requested_join2. Qed.

(** ** delete *)
Lemma exists_at_eq fs q : exists_at fs q = is_dir fs q || (match file_at fs q with Some _ => true | None => false end).
Proof. unfold exists_at, is_dir, file_at. destruct (lookup fs q) as [[|]|]; reflexivity. Qed.

Lemma leaf_below fs l : (exists c, lookup fs l = Some (File c)) \/ lookup fs l = Some (Dir []) ->
  forall q, q <> l -> is_prefix l q = true -> lookup fs q = None.
Proof.
  intros H q Hne Hp. apply is_prefix_iff in Hp as [r ->]. rewrite lookup_app.
  destruct r as [|x r]; [rewrite app_nil_r in Hne; congruence|].
  destruct H as [[c H]|H]; rewrite H; reflexivity.
Qed.

Lemma delete_leaf fs l : (exists c, lookup fs l = Some (File c)) \/ lookup fs l = Some (Dir []) ->
  (forall q, q <> l -> file_at (delete_at fs l) q = file_at fs q) /\
  (forall q, q <> l -> is_dir (delete_at fs l) q = is_dir fs q) /\
  (l <> [] -> exists_at (delete_at fs l) l = false).
Proof.
  intros H. pose proof (leaf_below fs l H) as Hb.
  destruct l as [|x l].
  - split; [reflexivity|]. split; [reflexivity|]. congruence.
  - assert (Hn : x :: l <> []) by discriminate. revert Hn H Hb. generalize (x :: l). clear x l. intros l Hn H Hb.
    assert (F : forall q, file_at (delete_at fs l) q = if loc_eq_dec q l then None else file_at fs q).
    { apply delete_at_file_at; [|assumption]. intros q H1 H2. unfold file_at. rewrite Hb by assumption. reflexivity. }
    assert (D : forall q, is_dir (delete_at fs l) q = if loc_eq_dec q l then false else is_dir fs q).
    { apply delete_at_is_dir; [|assumption]. intros q H1 H2. unfold is_dir. rewrite Hb by assumption. reflexivity. }
    split; [|split].
    + intros q Hq. rewrite F. destruct (loc_eq_dec q l); congruence.
    + intros q Hq. rewrite D. destruct (loc_eq_dec q l); congruence.
    + intros _. rewrite exists_at_eq, F, D. destruct (loc_eq_dec l l); [reflexivity|congruence].
Qed.

(** ** mount_remove *)
Lemma mount_remove_cases cwd fs m path v r fs' m' : absolute cwd ->
  mount_remove cwd fs m path v = (r, (fs', m')) ->
  (exists e, untrack cwd m path v = Exn e /\ r = Exn e /\ fs' = fs /\ m' = m) \/
  (untrack cwd m path v = Ok m' /\ r = Exn IsADirectoryError /\ fs' = fs) \/
  (untrack cwd m path v = Ok m' /\ r = Ok tt /\
   (forall q, q <> requested cwd (m_dir m) path -> file_at fs' q = file_at fs q) /\
   (forall q, q <> requested cwd (m_dir m) path -> is_dir fs' q = is_dir fs q) /\
   (requested cwd (m_dir m) path <> [] -> exists_at fs' (requested cwd (m_dir m) path) = false)).
Proof.
  intros Hc H. unfold mount_remove in H. destruct (untrack cwd m path v) as [m1|e] eqn:Eu.
  2:{ inversion H; subst. left. exists e; auto. }
  right. rewrite requested_os in H by assumption.
  destruct (lookup fs (requested cwd (m_dir m) path)) as [[c|[|x es]]|] eqn:El; inversion H; subst.
  - right. split; [reflexivity|]. split; [reflexivity|]. apply delete_leaf. left; eauto.
  - right. split; [reflexivity|]. split; [reflexivity|]. apply delete_leaf. right; assumption.
  - left; auto.
  - right. split; [reflexivity|]. split; [reflexivity|]. split; [reflexivity|]. split; [reflexivity|].
    intros _. unfold exists_at. rewrite El. reflexivity.
Qed.

Lemma untrack_inside cwd m path m' : absolute cwd -> absolute (m_dir m) ->
  untrack cwd m path true = Ok m' -> inside (requested cwd (m_dir m) path) (location cwd (m_dir m)).
Proof.
  intros Hc Hd H. unfold untrack in H.
  destruct (normalize_cases cwd (m_dir m) path Hc Hd) as [[t Ht]|Hx].
  - destruct (normalize_ok cwd (m_dir m) path Hc Hd t Ht) as (rest & Hl & _).
    rewrite requested_join2, Hl. exists rest; reflexivity.
  - rewrite Hx in H. discriminate.
Qed.

Lemma untrack_exn cwd m path e : absolute cwd -> absolute (m_dir m) ->
  untrack cwd m path true = Exn e -> e = MountException.
Proof.
  intros Hc Hd H. unfold untrack in H.
  destruct (normalize_cases cwd (m_dir m) path Hc Hd) as [[t Ht]|Hx].
  - rewrite Ht in H. destruct (remove_first t (m_touched m)); discriminate.
  - rewrite Hx in H. congruence.
Qed.

(** ** relative mounts *)
Lemma normalize_relative cwd dir path : absolute cwd -> ~ absolute dir ->
  normalize cwd dir path true = Exn ValueError.
Proof.
  intros Hc Hd. unfold normalize, mount_abspath, contains, commonpath1, commonpath2. cbn [bind].
  rewrite abspath_isabs by assumption.
  destruct (isabs dir) eqn:E; [exfalso; apply Hd; apply absolute_isabs; assumption|]. reflexivity.
Qed.

(** ** normalisation and equality *)
Lemma normalize_canonical cwd dir p q t u : absolute cwd -> absolute dir ->
  normalize cwd dir p true = Ok t -> normalize cwd dir q true = Ok u ->
  (teq t u = true <-> requested cwd dir p = requested cwd dir q) /\
  place cwd dir t = Some (requested cwd dir p).
Proof.
  intros Hc Hd Hp Hq.
  destruct (normalize_ok cwd dir p Hc Hd t Hp) as (r1 & L1 & _ & R1).
  destruct (normalize_ok cwd dir q Hc Hd u Hq) as (r2 & L2 & _ & R2).
  rewrite <- requested_join2 in L1, L2. split.
  - rewrite teq_iff, (rel_target_key_inj _ _ _ _ R1 R2), L1, L2. split; [congruence|apply app_inv_head].
  - rewrite (place_rel cwd dir t r1) by assumption. congruence.
Qed.

(** ** targets *)
Lemma split_last_sep_join sd n : noslash n -> snd (split_last_sep (join2 sd n)) = n.
Proof.
  intros Hn. unfold join2. rewrite (noslash_not_isabs n Hn). destruct sd as [|c r] eqn:E.
  - pose proof (split_last_sep_uniq [] n) as U. cbn [app] in U. rewrite U; [reflexivity|assumption|left; reflexivity].
  - rewrite <- E. destruct (ends_sep sd) eqn:Ee.
    + rewrite split_last_sep_uniq; [reflexivity|assumption|right; assumption].
    + change (sd ++ sep :: n) with (sd ++ [sep] ++ n). rewrite app_assoc, split_last_sep_uniq;
        [reflexivity|assumption|right]. clear. induction sd as [|c sd IH]; [reflexivity|].
      cbn. destruct sd; exact IH.
Qed.

Lemma from_path_name sd n : noslash n -> t_name (from_path (join2 sd n)) = Ok n.
Proof.
  intros Hn. unfold from_path, path_split. pose proof (split_last_sep_join sd n Hn) as H.
  destruct (split_last_sep (join2 sd n)) as [h t]. cbn in H. subst t.
  pose proof (splitext_app n) as Hs. destruct (splitext n) as [st su]. cbn in *. rewrite Hs. reflexivity.
Qed.

(** ** registering never yields MountException *)
Lemma default_f_exn fuel : forall touched t e, default_f fuel touched t = Exn e -> e = OutOfFuel \/ e = TypeError.
Proof.
  induction fuel as [|f IH]; intros touched t e H; cbn [default_f] in H.
  - destruct (in_touched t touched); inversion H; auto.
  - destruct (in_touched t touched); [|discriminate].
    destruct (t_stem t), (t_suffix t); try (inversion H; auto; fail).
    unfold update, Target in H. destruct (splitext _) as [a b]. cbn [bind] in H. eapply IH; eassumption.
Qed.

Lemma register_f_exn fuel : forall conf choice inputs touched t e,
  register_f fuel conf choice inputs touched t = Exn e -> e <> MountException.
Proof.
  induction fuel as [|f IH]; intros conf choice inputs touched t e H; cbn [register_f] in H.
  - destruct (in_touched t touched); inversion H; discriminate.
  - destruct (in_touched t touched); [|discriminate].
    destruct (default touched t) as [d|e1] eqn:Ed; cbn [bind] in H.
    2:{ unfold default in Ed. apply default_f_exn in Ed. inversion H; subst. destruct Ed as [-> | ->]; discriminate. }
    destruct (str_eq_dec _ ($"prompt")) in H.
    + unfold prompt_user in H. destruct inputs as [|l inputs]; cbn [bind] in H; [inversion H; discriminate|].
      destruct (match lower l with [] => ADefault | c :: s => AStr (c :: s) end) as [|s].
      * unfold t_name in H. destruct (t_stem d), (t_suffix d); cbn [bind] in H; try (inversion H; discriminate).
        unfold update, Target in H. destruct (splitext _) as [a b]. cbn [bind] in H. eapply IH; eassumption.
      * destruct (_ || _) in H.
        -- unfold t_name in H. destruct (t_stem d), (t_suffix d); cbn [bind] in H; try (inversion H; discriminate).
           unfold update, Target in H. destruct (splitext _) as [a b]. cbn [bind] in H. eapply IH; eassumption.
        -- destruct (member s [$"q"; $"quit"]); [inversion H; discriminate|].
           destruct (member s _); [discriminate|].
           unfold update, Target in H. destruct (splitext _) as [a b]. cbn [bind] in H. eapply IH; eassumption.
    + cbn [bind] in H. destruct (_ || _) in H.
      * unfold t_name in H. destruct (t_stem d), (t_suffix d); cbn [bind] in H; try (inversion H; discriminate).
        unfold update, Target in H. destruct (splitext _) as [a b]. cbn [bind] in H. eapply IH; eassumption.
      * destruct (member _ [$"q"; $"quit"]) in H; [inversion H; discriminate|].
        destruct (member _ _) in H; [discriminate|].
        unfold update, Target in H. destruct (splitext _) as [a b]. cbn [bind] in H. eapply IH; eassumption.
Qed.

(** ** gitignore *)
Lemma str_teq_iff p t : str_teq p t = true <-> exists q, fspath t = Ok q /\ normpath q = p.
Proof.
  unfold str_teq, t_key. destruct (fspath t) as [q|e].
  - destruct (key_eq_dec _ _) as [E|E].
    + split; [|reflexivity]. intros _. inversion E. eauto.
    + split; [discriminate|]. intros (q' & H1 & H2). inversion H1; subst. congruence.
  - destruct (key_eq_dec _ _); [discriminate|]. split; [discriminate|]. intros (q & H & _). discriminate.
Qed.

Lemma gi_entries_In cwd fs dir ignored check p : absolute cwd ->
  In p (gi_entries cwd fs dir ignored check) <-> gi_line cwd fs dir ignored check p.
Proof.
  intros Hc. unfold gi_entries, gi_line. rewrite sorted_set_In. cbn [In]. rewrite in_app_iff, filter_In.
  unfold old_lines. rewrite !requested_os by assumption.
  assert (A : (negb (existsb (str_teq p) check) || exists_at fs (requested cwd dir p) = true) <->
    ~ ((exists t q, In t check /\ fspath t = Ok q /\ normpath q = p) /\ exists_at fs (requested cwd dir p) = false)).
  { rewrite orb_true_iff, negb_true_iff.
    assert (B : existsb (str_teq p) check = true <-> exists t q, In t check /\ fspath t = Ok q /\ normpath q = p).
    { rewrite existsb_exists. split.
      - intros (t & H1 & H2). apply str_teq_iff in H2 as (q & H2 & H3). eauto.
      - intros (t & q & H1 & H2). exists t. split; [assumption|]. apply str_teq_iff. eauto. }
    rewrite <- B. destruct (existsb (str_teq p) check), (exists_at fs _); split; try tauto; intuition discriminate. }
  rewrite A.
  assert (C : In p match file_at fs (requested cwd dir ($".gitignore")) with Some (Text s) => splitlines s | _ => [] end <->
    exists s, file_at fs (requested cwd dir ($".gitignore")) = Some (Text s) /\ In p (splitlines s)).
  { destruct (file_at fs _) as [[s|j]|].
    - split; [intros H; exists s; auto|]. intros (s' & E & H). inversion E; subst. assumption.
    - split; [contradiction|]. intros (s' & E & H). discriminate.
    - split; [contradiction|]. intros (s' & E & H). discriminate. }
  rewrite C. intuition.
Qed.

Lemma gi_entries_props cwd fs dir ignored check : Forall one_line ignored ->
  let es := gi_entries cwd fs dir ignored check in
  Forall one_line es /\ NoDup es /\ es <> [] /\ last es [] <> [] /\ In ($".gitignore") es.
Proof.
  intros Hi es. unfold es, gi_entries.
  assert (Hin : In ($".gitignore") (($".gitignore") :: ignored ++
    filter (fun p => negb (existsb (str_teq p) check) || exists_at fs (os_loc cwd (join2 dir p))) (old_lines cwd fs dir)))
    by (left; reflexivity).
  split; [|split; [|split; [|split]]].
  - apply Forall_forall. intros x Hx. apply sorted_set_In in Hx as [<-|Hx].
    + intros c Hc. repeat (destruct Hc as [<-|Hc]; [reflexivity|]). contradiction.
    + apply in_app_or in Hx as [Hx|Hx]; [rewrite Forall_forall in Hi; auto|].
      apply filter_In in Hx as [Hx _]. unfold old_lines in Hx.
      destruct (file_at fs _) as [[s|]|]; try contradiction.
      pose proof (splitlines_lines s) as Hl. rewrite Forall_forall in Hl. auto.
  - apply sorted_NoDup, sorted_set_sorted.
  - intros E. apply sorted_set_In in Hin. rewrite E in Hin. contradiction.
  - apply sorted_set_last. exact Hin.
  - apply sorted_set_In. exact Hin.
Qed.

Lemma gitignore_loc cwd dir : absolute cwd ->
  requested cwd dir ($".gitignore") = location cwd dir ++ [$".gitignore"].
Proof.
  intros Hc. rewrite requested_join2, location_join2_any. reflexivity.
Qed.

Lemma gitignore_ok cwd fs dir ignored check fs' : absolute cwd -> Forall one_line ignored ->
  gitignore cwd fs dir ignored check = Ok fs' ->
  let G := requested cwd dir ($".gitignore") in
  (forall q, q <> G -> file_at fs' q = file_at fs q) /\ (forall q, is_dir fs' q = is_dir fs q) /\
  (((forall p, gi_line cwd fs dir ignored check p -> p = $".gitignore") /\ file_at fs' G = None /\
    exists c, file_at fs G = Some c) \/
   ((exists p, gi_line cwd fs dir ignored check p /\ p <> $".gitignore") /\
    exists s, file_at fs' G = Some (Text s) /\ splitlines s = gi_entries cwd fs dir ignored check /\
      write_file fs G (Text s) = Ok fs')).
Proof.
  intros Hc Hi H G. pose proof (gitignore_eq cwd fs dir ignored check) as E. rewrite requested_os in E by assumption.
  fold G in E.
  assert (E' : gitignore cwd fs dir ignored check =
         match gi_entries cwd fs dir ignored check with
         | [_] => os_remove fs G
         | es => write_file fs G (Text (join_lines es))
         end).
  { destruct (lookup fs G) as [[[s|j]|es]|]; try assumption; rewrite H in E; discriminate. }
  clear E. rewrite H in E'.
  destruct (gi_entries_props cwd fs dir ignored check Hi) as (P1 & P2 & P3 & P4 & P5).
  pose proof (fun p => gi_entries_In cwd fs dir ignored check p Hc) as PI.
  set (es := gi_entries cwd fs dir ignored check) in *.
  destruct es as [|e1 [|e2 es']] eqn:Ees.
  - congruence.
  - destruct P5 as [->|[]]. unfold os_remove in E'.
    destruct (lookup fs G) as [[c|]|] eqn:El; try discriminate. inversion E' as [E1]; subst fs'.
    destruct (delete_leaf fs G) as (D1 & D2 & D3); [left; eauto|].
    assert (HG : G <> []) by (unfold G; rewrite gitignore_loc by assumption; destruct (location cwd dir); discriminate).
    specialize (D3 HG).
    split; [exact D1|]. split.
    + intros q. destruct (loc_eq_dec q G) as [->|]; [|auto].
      unfold exists_at in D3. unfold is_dir. rewrite El. destruct (lookup (delete_at fs G) G); [discriminate|reflexivity].
    + left. split; [|split].
      * intros p Hp. apply PI in Hp as [<-|[]]. reflexivity.
      * unfold exists_at in D3. unfold file_at. destruct (lookup (delete_at fs G) G); [discriminate|reflexivity].
      * exists c. unfold file_at. rewrite El. reflexivity.
  - symmetry in E'. split; [|split].
    + intros q Hq. rewrite (write_file_lookup _ _ _ _ E'). destruct (loc_eq_dec q G); congruence.
    + intros q. apply (write_file_is_dir _ _ _ _ E').
    + right. split.
      * destruct (str_eq_dec e1 ($".gitignore")) as [->|Hne].
        -- exists e2. split; [apply PI; right; left; reflexivity|]. intros ->. inversion P2 as [|? ? N1 N2]; subst. apply N1. left; reflexivity.
        -- exists e1. split; [apply PI; left; reflexivity|assumption].
      * exists (join_lines (e1 :: e2 :: es')). split; [|split].
        -- rewrite (write_file_lookup _ _ _ _ E'). destruct (loc_eq_dec G G); congruence.
        -- apply splitlines_join; assumption.
        -- exact E'.
Qed.

Lemma gitignore_again cwd fs dir ignored check fs' s : absolute cwd -> Forall one_line ignored ->
  gitignore cwd fs dir ignored check = Ok fs' ->
  file_at fs' (requested cwd dir ($".gitignore")) = Some (Text s) ->
  gitignore cwd fs' dir ignored check = Ok fs'.
Proof.
  intros Hc Hi H Hs. destruct (gitignore_ok cwd fs dir ignored check fs' Hc Hi H) as (F1 & F2 & [(_ & F3 & _)|(Hex & s' & F3 & F4 & F5)]);
    [congruence|].
  set (G := requested cwd dir ($".gitignore")) in *.
  assert (s' = s) by congruence. subst s'.
  assert (Eent : gi_entries cwd fs' dir ignored check = gi_entries cwd fs dir ignored check).
  { apply sorted_ext; [apply sorted_set_sorted|apply sorted_set_sorted|].
    intros p. rewrite !gi_entries_In by assumption. unfold gi_line. fold G.
    assert (Ho : In p (splitlines s) <-> gi_line cwd fs dir ignored check p)
      by (rewrite F4; apply gi_entries_In; assumption).
    split.
    - intros [H1|[H1|[(s1 & E1 & H1) _]]]; [left; assumption|right; left; assumption|].
      rewrite F3 in E1. inversion E1; subst s1. apply Ho. exact H1.
    - intros [H1|[H1|[(s1 & E1 & H1) H2]]]; [left; assumption|right; left; assumption|].
      right; right. split.
      + exists s. split; [assumption|]. apply Ho. right; right. split; [eauto|assumption].
      + intros [C1 C2]. apply H2. split; [assumption|].
        rewrite exists_at_eq in *. rewrite F2 in C2. apply orb_false_iff in C2 as [C2 C3]. rewrite C2. cbn [orb].
        destruct (loc_eq_dec (requested cwd dir p) G) as [E|E].
        * rewrite E, F3 in C3. discriminate.
        * rewrite F1 in C3 by assumption. exact C3. }
  pose proof (gitignore_eq cwd fs' dir ignored check) as E. rewrite requested_os in E by assumption. fold G in E.
  rewrite Eent in E.
  assert (El : lookup fs' G = Some (File (Text s))).
  { unfold file_at in Hs. destruct (lookup fs' G) as [[c|]|]; congruence. }
  rewrite El in E. rewrite E.
  pose proof (fun p => gi_entries_In cwd fs dir ignored check p Hc) as PI.
  assert (Hjl : s = join_lines (gi_entries cwd fs dir ignored check)).
  { pose proof (gitignore_eq cwd fs dir ignored check) as E0. rewrite requested_os in E0 by assumption. fold G in E0.
    destruct (gi_entries_props cwd fs dir ignored check Hi) as (P1 & P2 & P3 & P4 & P5).
    assert (E1 : gitignore cwd fs dir ignored check = match gi_entries cwd fs dir ignored check with
         | [_] => os_remove fs G
         | es => write_file fs G (Text (join_lines es))
         end).
    { destruct (lookup fs G) as [[[s0|j]|es]|]; try assumption; rewrite H in E0; discriminate. }
    rewrite H in E1. set (es := gi_entries cwd fs dir ignored check) in *.
    destruct es as [|e1 [|e2 es']].
    - congruence.
    - exfalso. destruct Hex as (p & Hp & Hne). apply PI in Hp as [<-|[]]. destruct P5 as [P5|[]]. congruence.
    - symmetry in E1. pose proof (write_file_lookup _ _ _ _ E1 G) as E2. rewrite F3 in E2.
      destruct (loc_eq_dec G G); congruence. }
  assert (HG : exists x l, G = x :: l).
  { unfold G. rewrite gitignore_loc by assumption. destruct (location cwd dir) as [|x0 l0]; cbn [app]; eauto. }
  destruct HG as (x & l & HG).
  assert (Ew : write_file fs' G (Text s) = Ok fs') by (rewrite HG; apply write_file_same; rewrite <- HG; assumption).
  destruct (gi_entries cwd fs dir ignored check) as [|e1 [|e2 es']] eqn:Ees; [rewrite <- Hjl; exact Ew| |rewrite <- Hjl; exact Ew].
  exfalso. destruct Hex as (p & Hp & Hne). apply PI in Hp.
  destruct (gi_entries_props cwd fs dir ignored check Hi) as (_ & _ & _ & _ & P5). rewrite Ees in P5.
  destruct Hp as [<-|[]]. destruct P5 as [P5|[]]. congruence.
Qed.

Lemma close_files cwd fs m fs' : absolute cwd -> well_formed fs ->
  mount_close cwd fs m = Ok fs' ->
  exists d, (d = m_dir m \/ d = fst (path_split (m_dir m))) /\
    forall q, q <> location cwd d ++ [$".gitignore"] -> file_at fs' q = file_at fs q.
Proof.
  intros Hc Hw H. unfold mount_close in H.
  set (fs1 := prune_directories fs (os_loc cwd (m_dir m))) in *.
  assert (H1 : forall q, file_at fs1 q = file_at fs q) by (intros q; apply prune_directories_file_at; assumption).
  assert (G : forall d ig ck, gitignore cwd fs1 d ig ck = Ok fs' -> forall q, q <> location cwd d ++ [$".gitignore"] -> file_at fs' q = file_at fs q).
  { intros d ig ck Hg q Hq. rewrite <- H1. rewrite <- gitignore_loc in Hq by assumption.
    pose proof (gitignore_eq cwd fs1 d ig ck) as E. rewrite requested_os in E by assumption.
    set (Gl := requested cwd d ($".gitignore")) in *.
    assert (E' : gitignore cwd fs1 d ig ck =
         match gi_entries cwd fs1 d ig ck with
         | [_] => os_remove fs1 Gl
         | es => write_file fs1 Gl (Text (join_lines es))
         end).
    { destruct (lookup fs1 Gl) as [[[s|j]|es]|]; try assumption; rewrite Hg in E; discriminate. }
    rewrite Hg in E'.
    assert (K : forall es, write_file fs1 Gl (Text (join_lines es)) = Ok fs' -> file_at fs' q = file_at fs1 q).
    { intros es Hes. rewrite (write_file_lookup _ _ _ _ Hes). destruct (loc_eq_dec q Gl); congruence. }
    destruct (gi_entries cwd fs1 d ig ck) as [|e1 [|e2 es']]; [eapply K; symmetry; eassumption| |eapply K; symmetry; eassumption].
    unfold os_remove in E'. destruct (lookup fs1 Gl) as [[c|]|] eqn:El; try discriminate. inversion E'; subst.
    apply delete_leaf; [left; eauto|assumption]. }
  destruct (negb (m_gitignore m)).
  { inversion H; subst. exists (m_dir m). split; [left; reflexivity|]. intros q _. apply H1. }
  destruct (flat_map _ _) as [|x l] in H.
  { inversion H; subst. exists (m_dir m). split; [left; reflexivity|]. intros q _. apply H1. }
  destruct (m_cluster m).
  - destruct (path_split (m_dir m)) as [d n]. exists d. split; [right; reflexivity|]. eapply G; eassumption.
  - exists (m_dir m). split; [left; reflexivity|]. eapply G; eassumption.
Qed.

(** ** mount directories *)
Lemma plain_clean k : plain k -> clean k.
Proof. intros H. exact H. Qed.

Lemma location_snoc cwd a k : clean k -> location cwd (join2 a k) = location cwd a ++ [k].
Proof.
  intros Hk. rewrite location_join2_any. destruct Hk as (H1 & H2 & H3 & H4).
  rewrite (noslash_not_isabs k H4), split_noslash by assumption.
  unfold walk. cbn [fold_left]. apply walk_step_clean. repeat split; assumption.
Qed.

Lemma join2_abs a b : isabs b = true -> join2 a b = b.
Proof. unfold join2. intros ->. reflexivity. Qed.

Lemma mount_dir_key cwd base g sd k : clean k ->
  location cwd (mount_dir base g sd k true) = location cwd (mount_dir base g sd k false) ++ [k].
Proof.
  intros Hk. unfold mount_dir, joinN. cbn [fold_left].
  set (b := join2 base g).
  pose proof (location_snoc cwd sd k Hk) as Hs.
  destruct (isabs sd) eqn:Es.
  - rewrite (join2_abs b (join2 sd k)) by (apply isabs_join2; assumption). rewrite (join2_abs b sd) by assumption. exact Hs.
  - rewrite !location_join2_any, Es.
    assert (Ha : isabs (join2 sd k) = false).
    { unfold join2. destruct Hk as (H1 & H2 & H3 & H4). rewrite (noslash_not_isabs k H4).
      destruct sd as [|c r]; [apply noslash_not_isabs; assumption|].
      destruct (ends_sep (c :: r)); exact Es. }
    rewrite Ha.
    assert (Hw : forall here, walk here (split_sep (join2 sd k)) = walk here (split_sep sd) ++ [k]).
    { intros here. pose proof Hk as (H1 & H2 & H3 & H4). unfold join2. rewrite (noslash_not_isabs k H4).
      destruct sd as [|c r] eqn:Esd.
      - rewrite split_noslash by assumption. unfold walk. cbn [fold_left split_sep]. rewrite walk_step_clean by assumption. reflexivity.
      - rewrite <- Esd. destruct (ends_sep sd) eqn:Ee.
        + destruct (ends_sep_split sd Ee) as [a ->]. rewrite <- app_assoc. cbn [app].
          rewrite !split_app, !walk_app, (split_noslash k) by assumption.
          unfold walk at 1. cbn [fold_left]. rewrite walk_step_clean by assumption. reflexivity.
        + rewrite split_app, walk_app, (split_noslash k) by assumption.
          unfold walk at 1. cbn [fold_left]. apply walk_step_clean; assumption. }
    apply Hw.
Qed.
