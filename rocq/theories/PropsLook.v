(** C86: loading and reading change no file. *)
From Coq Require Import List Ascii String Bool Arith ZArith Lia.
From Verif Require Import Base PosixModel FsModel PathModel SerialModel StoreModel StoreFrame StoreMount StoreEvents StoreRecord StoreSpec StoreExample RoundSpec KeepSpec
     PathSpec MountSpec DirSpec PosixProof FsProof DirProof TargetProof MountProof HistoryProof PathFacts StoreLocal StorePlace PropsRepo PropsRecord.
Import ListNotations.

Local Arguments str_eq_dec : simpl never.

(** ** Specification *)
(** Nothing but looking: every file is as it was, no directory is gone, the user was not asked, no name was drawn, and
    the operations made are reads and preparations of places. *)
Definition only_looked (w w' : world) : Prop :=
  (forall q, file_at (w_fs w') q = file_at (w_fs w) q) /\ (forall q, is_dir (w_fs w) q = true -> is_dir (w_fs w') q = true) /\
  w_inputs w' = w_inputs w /\ w_uuid w' = w_uuid w /\
  exists evs, w_log w' = evs ++ w_log w /\ forall e, In e evs -> (exists l, e = EvRead l) \/ (exists i p, e = EvPrepare i p).
(** [q] is the directory of a place that was asked for in a mount, or lies above it (the place may be the directory of
    the mount itself). *)
Definition on_the_way (E : senv) (w w' : world) (q : loc) : Prop :=
  exists i path d rest, happened w w' (EvPrepare i path) /\ mount_at w i d /\
    requested (s_cwd E) d path = location (s_cwd E) d ++ rest /\ is_prefix q (location (s_cwd E) d ++ removelast rest) = true.
(** All mounts were made in absolute directories and used with unattended calls only. *)
Definition ordinary_mounts (E : senv) (w : world) : Prop :=
  forall i m, nth_error (w_mounts w) i = Some m -> exists dir, absolute dir /\ reachable (s_cwd E) (s_retouch E) dir m.

(** ** Proof *)
Lemma register_no_prompt fuel : forall conf c inputs touched t t' touched' inputs', c = $"_ignore" \/ c = $"auto" ->
  register_f fuel conf (Some c) inputs touched t = Ok (t', touched', inputs') -> inputs' = inputs.
Proof.
  induction fuel as [|fuel IH]; intros conf c inputs touched t t' touched' inputs' Hc H; cbn [register_f] in H.
  - destruct (in_touched t touched); [discriminate|congruence].
  - destruct (in_touched t touched); [|congruence]. destruct (default touched t) as [d|]; [|discriminate]. cbn [bind] in H.
    assert (Hp : (if str_eq_dec c ($"prompt") then prompt_user inputs else Ok (PathModel.AStr c, inputs)) = Ok (PathModel.AStr c, inputs)).
    { destruct (str_eq_dec c ($"prompt")) as [->|]; [destruct Hc; discriminate|reflexivity]. }
    rewrite Hp in H. cbn [bind] in H.
    destruct (str_teq c d || _) eqn:Ea.
    + destruct (t_name d) as [n|]; [|discriminate]. cbn [bind] in H. destruct (update _ _ _ _ _) as [t1|]; [|discriminate]. cbn [bind] in H.
      eapply IH; [|exact H]. right. reflexivity.
    + apply orb_false_iff in Ea as [_ Ea]. destruct Hc as [->| ->]; [|destruct (str_eq_dec ($"auto") ($"auto")); [discriminate|congruence]].
      replace (member ($"_ignore") [$"q"; $"quit"]) with false in H by reflexivity.
      replace (member ($"_ignore") [$"x"; $"ignore"; $"_ignore"]) with true in H by reflexivity. congruence.
Qed.

Section Look.
Variable E : senv.
Hypothesis Hcwd : absolute (s_cwd E).

Definition fine (w : world) : Prop := forall i m, nth_error (w_mounts w) i = Some m -> absolute (m_dir m) /\ touched_ok (m_touched m).
Definition looked (w w' : world) : Prop :=
  only_looked w w' /\ statics w' = statics w /\ (well_formed (w_fs w) -> well_formed (w_fs w')) /\
  (fine w -> fine w' /\ forall q, is_dir (w_fs w') q = true -> is_dir (w_fs w) q = true \/ on_the_way E w w' q).

Lemma looked_refl w : looked w w.
Proof. split; [|split; [reflexivity|split; auto]]. repeat split; auto. exists []. split; [reflexivity|intros e []]. Qed.
Lemma looked_trans a b c : looked a b -> looked b c -> looked a c.
Proof.
  intros ((F1 & D1 & I1 & U1 & e1 & L1 & K1) & S1 & W1 & N1) ((F2 & D2 & I2 & U2 & e2 & L2 & K2) & S2 & W2 & N2). split; [|split; [congruence|split; [auto|]]].
  - split; [intros q; rewrite F2; apply F1|]. split; [auto|]. split; [congruence|]. split; [congruence|]. exists (e2 ++ e1).
    split; [rewrite L2, L1, app_assoc; reflexivity|]. intros e He. apply in_app_or in He as [He|He]; auto.
  - intros Ha. destruct (N1 Ha) as [Hb G1]. destruct (N2 Hb) as [Hc G2]. split; [exact Hc|]. intros q Hq. destruct (G2 q Hq) as [Hq1|(i & path & d & rest & (ev & V1 & V2) & Hm & Hr)].
    + destruct (G1 q Hq1) as [Hq2|(i & path & d & rest & (ev & V1 & V2) & Hm & Hr)]; [auto|]. right. exists i, path, d, rest.
      split; [|auto]. exists (e2 ++ ev). split; [rewrite L2, V1, app_assoc; reflexivity|apply in_or_app; auto].
    + right. exists i, path, d, rest. split; [|split; [|exact Hr]].
      * exists (ev ++ e1). split; [rewrite V1, L1, app_assoc; reflexivity|apply in_or_app; auto].
      * apply (mount_at_eq b a); [exact S1|exact Hm].
Qed.
Lemma looked_logged ev w : (exists l, ev = EvRead l) \/ (exists i p, ev = EvPrepare i p) -> looked w (logged ev w).
Proof.
  intros Hev. split; [|split; [reflexivity|split; [auto|intros Hf; split; [exact Hf|auto]]]]. repeat split; auto. exists [ev]. split; [reflexivity|]. intros e [<-|[]]. exact Hev.
Qed.
Lemma looked_read l w : looked w (snd (m_read E l w)).
Proof.
  destruct (m_read E l w) as [r w'] eqn:H. cbn [snd]. apply m_read_inv in H as [[_ ->]|[-> _]]; [apply looked_refl|apply looked_logged; eauto].
Qed.
Lemma prepare_dirs cwd conf fs m p v ch inp r fs' m' inp' : prepare cwd conf fs m p v ch inp = (r, (fs', m', inp')) ->
  forall q, is_dir fs q = true -> is_dir fs' q = true.
Proof.
  intros H q Hq. unfold prepare in H. destruct (normalize _ _ _ _); [|inversion H; subst; exact Hq].
  destruct (register _ _ _ _ _) as [[[t' tt'] i']|]; [|inversion H; subst; exact Hq].
  destruct (t_subdir t'); [|inversion H; subst; exact Hq]. destruct (is_dir fs (os_loc _ _)); [inversion H; subst; exact Hq|].
  destruct (makedirs _ _) eqn:Em; inversion H; subst; [|exact Hq]. rewrite (makedirs_is_dir _ _ _ Em), Hq. reflexivity.
Qed.
Lemma prepare_inputs cwd conf fs m p v inp r fs' m' inp' : prepare cwd conf fs m p v (Some ($"_ignore")) inp = (r, (fs', m', inp')) -> inp' = inp.
Proof.
  intros H. unfold prepare in H. destruct (normalize _ _ _ _); [|congruence].
  destruct (register _ _ _ _ _) as [[[t' tt'] i']|] eqn:Er; [|congruence]. unfold register in Er. apply register_no_prompt in Er; [|left; reflexivity]. subst i'.
  destruct (t_subdir t'); [|congruence]. destruct (is_dir fs (os_loc _ _)); [congruence|]. destruct (makedirs _ _); congruence.
Qed.
Lemma looked_prepare j p w : looked w (snd (m_prepare E j p (Some ($"_ignore")) w)).
Proof.
  destruct (m_prepare E j p (Some ($"_ignore")) w) as [r w'] eqn:H. apply m_prepare_inv in H. destruct H as [Hl|Hn|m r fs m' inp Hm Hp]; cbn [snd].
  - apply looked_refl.
  - apply looked_logged. eauto.
  - split; [|split; [unfold statics at 1; cbn [w_mounts]; eapply statics_set; [eassumption|eapply prepare_static; eassumption]|split; [cbn [w_fs]; eapply prepare_wf; eassumption|]]].
    + split; [intros q; cbn [w_fs]; eapply prepare_files; eassumption|]. split; [intros q; cbn [w_fs]; eapply prepare_dirs; eassumption|].
      split; [cbn [w_inputs]; eapply prepare_inputs; eassumption|]. split; [reflexivity|]. exists [EvPrepare j p]. split; [reflexivity|]. intros e [<-|[]]. eauto.
    + intros Hf. destruct (Hf j m Hm) as [Ha Ht].
      destruct (prepare_spec (s_cwd E) (s_retouch E) (w_fs w) m p (Some ($"_ignore")) (w_inputs w)) as (r1 & fs1 & m1 & Hq & Hs); [assumption|assumption|assumption| |].
      { right. right. right. left. reflexivity. }
      rewrite Hp in Hq. injection Hq as <- <- <- _.
      assert (Hm1 : absolute (m_dir m') /\ touched_ok (m_touched m')).
      { pose proof (prepare_static _ _ _ _ _ _ _ _ _ _ _ _ Hp) as Hst. unfold static in Hst. injection Hst as -> _ _. split; [exact Ha|].
        destruct Hs; assumption. }
      split.
      * intros i0 m0 Hi0. cbn [w_mounts] in Hi0. rewrite nth_set_nth in Hi0. destruct (Nat.eq_dec i0 j) as [->|]; [rewrite Hm in Hi0; injection Hi0 as <-; exact Hm1|eauto].
      * intros q Hq. cbn [w_fs] in Hq. destruct Hs as [| |t rest t' rest' touched' r fs Hn Hrt Hreq Hrt' Hto Hrl Hsu Hfr Hdis [(-> & Hfi & Hdi)|(e & -> & He & ->)]]; auto.
        rewrite Hdi in Hq. apply orb_true_iff in Hq as [Hq|Hq]; [auto|]. right.
        rewrite Hrl in Hq. exists j, p, (m_dir m), rest. split; [|split; [|split; [exact Hreq|exact Hq]]].
        { exists [EvPrepare j p]. split; [reflexivity|left; reflexivity]. }
        { exists m. auto. }
Qed.

Definition readers (F : fns) : fns := mkFns (fun _ _ _ => raise OutOfFuel) (f_de F) (fun _ _ => raise OutOfFuel).
Notation lk := (pres (fun _ => True) looked).
Lemma readers_pres n : pres_fns (fun _ => True) looked 0 (fun _ => False) (readers (depth E n)).
Proof.
  induction n as [|n IH]; (split; [|split]); intros; try (apply pres_raise; exact looked_refl).
  change (lk (de_body E (readers (depth E n)) cx x p)).
  apply (pres_de_body E (fun _ => True) looked looked_refl looked_trans (fun _ _ _ _ => I) 0 (fun _ => False)); [intros l w _; apply looked_read|intros j p0 w _; apply looked_prepare|exact IH].
Qed.
Lemma lk_de n cx p : lk (deserialize E n cx p).
Proof. exact (proj1 (proj2 (readers_pres n)) cx None p). Qed.
Lemma lk_bind {A B} (m : M A) (f : A -> M B) : lk m -> (forall a, lk (f a)) -> lk (mbind m f).
Proof. apply pres_bind; [exact looked_trans|auto]. Qed.
Lemma lk_ret {A} (a : A) : lk (ret a). Proof. apply pres_ret. exact looked_refl. Qed.
Lemma lk_raise {A} e : lk (@raise A e). Proof. apply pres_raise. exact looked_refl. Qed.
Lemma lk_mapM {A B} (f : A -> M B) l : (forall x, lk (f x)) -> lk (mapM f l).
Proof. intros H. apply pres_mapM; [exact looked_refl|exact looked_trans|auto|]. intros x _. apply H. Qed.
Lemma lk_content n o : lk (content_of E n o).
Proof.
  destruct o; try apply lk_ret. cbn [content_of]. apply lk_bind; [|intros [[v c'] re']; apply lk_ret].
  change (lk (rec_load E (readers (depth E n)) o re)).
  apply (pres_rec_load E (fun _ => True) looked looked_refl looked_trans (fun _ _ _ _ => I) 0 (fun _ => False)); [intros l w _; apply looked_read|intros j p0 w _; apply looked_prepare|apply readers_pres].
Qed.
Lemma lk_view k n : forall o, lk (view E k n o).
Proof.
  induction n as [|n IH]; intros o; [apply lk_raise|]. cbn [view]. apply lk_bind; [apply lk_content|]. intros x.
  destruct (fst x); try apply lk_ret; try apply lk_raise;
    try (apply lk_bind; [apply lk_mapM|intros ts; apply lk_ret]); try assumption; try (intros kv; apply lk_bind; [apply IH|intros t0; apply lk_ret]).
  destruct (k_kind (s_class E c)); [apply lk_raise|]. apply lk_bind; [apply lk_mapM|intros ts; apply lk_ret]. intros f.
  destruct (assoc (mf_name f) fs); [apply lk_bind; [apply IH|intros t0; apply lk_ret]|apply lk_raise].
Qed.
Lemma fine_ordinary w : ordinary_mounts E w -> fine w.
Proof. intros H i m Hm. destruct (H i m Hm) as (dir & Ha & Hr). destruct (reachable_ok _ _ _ _ Hcwd Ha Hr) as [-> Ht]. auto. Qed.
End Look.

(** ** Reading *)
(** Deserializing, giving the content of a record, and walking a whole value with everything it refers to: whatever the
    outcome, no file changes, nobody is asked, no name is drawn; directories appear only on the way to the files looked
    for. *)
Theorem C86_reading_changes_no_file : forall E n k cx p o w w', absolute (s_cwd E) ->
  (exists r, deserialize E n cx p w = (r, w')) \/ (exists r, content_of E n o w = (r, w')) \/ (exists r, view E n k o w = (r, w')) ->
  only_looked w w' /\ (ordinary_mounts E w -> forall q, is_dir (w_fs w') q = true -> is_dir (w_fs w) q = true \/ on_the_way E w w' q).
Proof.
  intros E n k cx p o w w' Hc H.
  assert (L : looked E w w').
  { destruct H as [[r H]|[[r H]|[r H]]].
    - pose proof (lk_de E Hc n cx p w I) as L. rewrite H in L. exact L.
    - pose proof (lk_content E Hc n o w I) as L. rewrite H in L. exact L.
    - pose proof (lk_view E Hc n k o w I) as L. rewrite H in L. exact L. }
  destruct L as (L & _ & _ & N). split; [exact L|]. intros Ho. apply N. apply (fine_ordinary E); assumption.
Qed.

(** ** Loading *)
(** The .gitignore that saving keeps for the key. *)
Definition ignore_at (E : senv) (p : opts) (k : str) : loc :=
  location (s_cwd E) (if o_cluster p then fst (path_split (key_dir p k)) else key_dir p k) ++ [$".gitignore"].

Lemma close_ignore cwd fs m fs' : absolute cwd -> well_formed fs -> mount_close cwd fs m = Ok fs' ->
  forall q, file_at fs' q = file_at fs q \/
    (m_gitignore m = true /\ m_touched m <> [] /\ q = location cwd (if m_cluster m then fst (path_split (m_dir m)) else m_dir m) ++ [$".gitignore"]).
Proof.
  intros Hc Hw H q. unfold mount_close in H.
  assert (H1 : file_at (prune_directories fs (os_loc cwd (m_dir m))) q = file_at fs q) by (apply prune_directories_file_at; assumption).
  assert (G : forall d ig ck, gitignore cwd (prune_directories fs (os_loc cwd (m_dir m))) d ig ck = Ok fs' ->
    file_at fs' q = file_at fs q \/ q = location cwd d ++ [$".gitignore"]).
  { intros d ig ck Hg. destruct (loc_eq_dec q (location cwd d ++ [$".gitignore"])) as [|Hq]; [auto|left]. rewrite <- H1. clear H.
    set (fs1 := prune_directories _ _) in *.
    rewrite <- gitignore_loc in Hq by assumption.
    pose proof (gitignore_eq cwd fs1 d ig ck) as E. rewrite requested_os in E by assumption. set (Gl := requested cwd d ($".gitignore")) in *.
    assert (E' : gitignore cwd fs1 d ig ck =
         match gi_entries cwd fs1 d ig ck with
         | [_] => os_remove fs1 Gl
         | es => write_file fs1 Gl (Text (join_lines es))
         end).
    { destruct (lookup fs1 Gl) as [[[s|j]|es]|]; try assumption; rewrite Hg in E; discriminate. }
    rewrite Hg in E'.
    assert (K : forall es, write_file fs1 Gl (Text (join_lines es)) = Ok fs' -> file_at fs' q = file_at fs1 q).
    { intros es Hes. rewrite (write_file_lookup _ _ _ _ Hes). destruct (loc_eq_dec q Gl); congruence. }
    destruct (gi_entries cwd fs1 d ig ck) as [|e1 [|e2 es']]; [eapply K; symmetry; eassumption| |eapply K; symmetry; eassumption].
    unfold os_remove in E'. destruct (lookup fs1 Gl) as [[c|]|] eqn:El; try discriminate. inversion E'; subst.
    apply delete_leaf; [left; eauto|assumption]. }
  destruct (m_gitignore m); cbn [negb] in H; [|injection H as <-; auto].
  destruct (m_touched m) as [|t ts]; [cbn [flat_map] in H; injection H as <-; auto|].
  destruct (flat_map _ (t :: ts)) as [|x l] in H; [injection H as <-; auto|].
  destruct (m_cluster m).
  - destruct (path_split (m_dir m)) as [d n]. destruct (G _ _ _ H) as [|Hq]; [auto|]. right. cbn [fst]. repeat split; [discriminate|exact Hq].
  - destruct (G _ _ _ H) as [|Hq]; [auto|]. right. repeat split; [discriminate|exact Hq].
Qed.
(** Loading a key, whatever comes of it: the only file that may change is the .gitignore of the key, and only if the
    load returns and the option [gitignore] is on; nobody is asked and no name is drawn. *)
Theorem C86_load_changes_no_data : forall E n p k d df w r w', absolute (s_cwd E) -> well_formed (w_fs w) ->
  load E n p k d df w = (r, w') ->
  (forall q, file_at (w_fs w') q = file_at (w_fs w) q \/ ((exists o, r = Ok o) /\ o_gitignore p = true /\ q = ignore_at E p k)) /\
  w_inputs w' = w_inputs w /\ w_uuid w' = w_uuid w.
Proof.
  intros E n p k d df w r w' Hc Hw H. rewrite load_eq in H by assumption. cbn zeta in H. set (w1 := mkWorld _ _ _ _ _) in H.
  set (i := List.length (w_mounts w)) in *. set (J := json_at E p k) in *.
  assert (Hst : forall w2, statics w2 = statics w1 -> exists m, nth_error (w_mounts w2) i = Some m /\ m_dir m = key_dir p k /\ m_cluster m = o_cluster p /\ m_gitignore m = o_gitignore p).
  { intros w2 H2. assert (K : nth_error (statics w2) i = Some (key_dir p k, o_cluster p, o_gitignore p)).
    { rewrite H2. unfold statics, w1. cbn [w_mounts]. rewrite map_app, nth_error_app2 by (rewrite map_length; unfold i; lia).
      rewrite map_length. fold i. rewrite Nat.sub_diag. reflexivity. }
    unfold statics in K. rewrite nth_error_map in K. destruct (nth_error (w_mounts w2) i) as [m|]; [|discriminate]. cbn in K. injection K as K1 K2 K3. exists m. auto. }
  set (same := fun a b : world => (forall q, file_at (w_fs b) q = file_at (w_fs a) q) /\ w_inputs b = w_inputs a /\ w_uuid b = w_uuid a).
  assert (Hx : forall w2, same w w2 -> statics w2 = statics w1 -> well_formed (w_fs w2) -> forall o, (_ <- close_context E (mkCtx i []);; ret o) w2 = (r, w') ->
    (forall q, file_at (w_fs w') q = file_at (w_fs w) q \/ ((exists o, r = Ok o) /\ o_gitignore p = true /\ q = ignore_at E p k)) /\
    w_inputs w' = w_inputs w /\ w_uuid w' = w_uuid w).
  { intros w2 (L1 & L2 & L3) H2 Hw2 o Hcl. unfold mbind in Hcl. destruct (close_context E (mkCtx i []) w2) as [rc w3] eqn:Ec.
    unfold close_context in Ec. apply op_cases in Ec as [(-> & -> & _)|Ec].
    - injection Hcl as <- <-. split; [auto|]. split; assumption.
    - cbn [c_mnt logged w_mounts w_fs] in Ec. destruct (Hst w2 H2) as (m & Hm & Hd & Hcl' & Hg). rewrite Hm in Ec.
      destruct (mount_close (s_cwd E) (w_fs w2) m) as [fs|e] eqn:Em; injection Ec as <- <-.
      + unfold ret in Hcl. injection Hcl as <- <-. cbn [set_fs w_fs w_inputs w_uuid]. split; [|split; assumption].
        intros q. rewrite <- L1. destruct (close_ignore _ _ _ _ Hc Hw2 Em q) as [Hq|(Hq1 & _ & Hq2)]; [auto|]. right. split; [eauto|].
        split; [congruence|]. unfold ignore_at. rewrite <- Hd, <- Hcl'. exact Hq2.
      + injection Hcl as <- <-. cbn [set_fs w_fs w_inputs w_uuid]. split; [|split; assumption].
        intros q. left. rewrite prune_directories_file_at by assumption. apply L1. }
  assert (Hdone : forall w2, same w w2 -> w' = w2 -> (forall q, file_at (w_fs w') q = file_at (w_fs w) q \/ ((exists o, r = Ok o) /\ o_gitignore p = true /\ q = ignore_at E p k)) /\
    w_inputs w' = w_inputs w /\ w_uuid w' = w_uuid w).
  { intros w2 (L1 & L2 & L3) ->. auto. }
  assert (Hlk : forall a b, same w a -> looked E a b -> same w b).
  { intros a b (A1 & A2 & A3) ((B1 & _ & B2 & B3 & _) & _). split; [intros q; rewrite B1; apply A1|]. split; congruence. }
  assert (S1 : same w w1) by (split; [reflexivity|split; reflexivity]).
  unfold mbind at 1 in H. destruct (m_exists E J w1) as [re wa] eqn:Ee. unfold m_exists in Ee. apply op_cases in Ee as [(-> & -> & _)|Ee].
  { injection H as _ <-. apply (Hdone w1); auto. }
  injection Ee as <- <-. set (w2 := logged (EvStat J) w1) in *. assert (S2 : same w w2) by exact S1. assert (T2 : statics w2 = statics w1) by reflexivity.
  assert (W2 : well_formed (w_fs w2)) by exact Hw.
  destruct (exists_at _ J).
  - unfold mbind at 1 in H. unfold mbind at 1 in H. destruct (m_read E J w2) as [rr w3] eqn:Er.
    pose proof (looked_read E J w2) as L. rewrite Er in L. cbn [snd] in L. assert (S3 := Hlk _ _ S2 L). destruct L as (_ & T3 & W3 & _).
    destruct rr as [c|e]; [|injection H as _ <-; apply (Hdone w3); auto].
    destruct c as [s|j]; [cbn in H; injection H as _ <-; apply (Hdone w3); auto|].
    destruct (deserialize E n (Some (mkCtx i [])) (of_json j) w3) as [rd w4] eqn:Ed.
    pose proof (lk_de E Hc n (Some (mkCtx i [])) (of_json j) w3 I) as L. rewrite Ed in L. cbn [snd] in L. assert (S4 := Hlk _ _ S3 L). destruct L as (_ & T4 & W4 & _).
    destruct rd as [o|e]; [|injection H as _ <-; apply (Hdone w4); auto].
    eapply (Hx w4); [exact S4|congruence|auto|exact H].
  - unfold mbind at 1 in H. destruct d as [v|]; [|destruct df as [v|]]; unfold ret at 1, raise in H.
    + eapply (Hx w2); eassumption.
    + eapply (Hx w2); eassumption.
    + injection H as _ <-. apply (Hdone w2); auto.
Qed.
(** If nothing in the key's json is marked for preloading then no file changes at all, and no directory appears. *)
Theorem C86_lazy_load_changes_nothing : forall E n p k d df w r w', absolute (s_cwd E) -> well_formed (w_fs w) ->
  (forall j, file_at (w_fs w) (json_at E p k) = Some (Json j) -> no_preload (of_json j)) ->
  load E n p k d df w = (r, w') ->
  (forall q, file_at (w_fs w') q = file_at (w_fs w) q) /\ (forall q, is_dir (w_fs w') q = true -> is_dir (w_fs w) q = true).
Proof.
  intros E n p k d df w r w' Hc Hw Hj H. rewrite load_eq in H by assumption. cbn zeta in H. set (w1 := mkWorld _ _ _ _ _) in H.
  set (i := List.length (w_mounts w)) in *. set (J := json_at E p k) in *.
  assert (Hm : nth_error (w_mounts w1) i = Some (new_mount (key_dir p k) (o_cluster p) (o_gitignore p))).
  { unfold w1, i. cbn [w_mounts]. rewrite nth_error_app2, Nat.sub_diag by lia. reflexivity. }
  assert (Hx : forall w2, w_fs w2 = w_fs w -> w_mounts w2 = w_mounts w1 -> forall o, (_ <- close_context E (mkCtx i []);; ret o) w2 = (r, w') ->
    (forall q, file_at (w_fs w') q = file_at (w_fs w) q) /\ (forall q, is_dir (w_fs w') q = true -> is_dir (w_fs w) q = true)).
  { intros w2 F2 M2 o Hcl. unfold mbind in Hcl. destruct (close_context E (mkCtx i []) w2) as [rc w3] eqn:Ec.
    assert (Hp : w_fs w3 = w_fs w \/ w_fs w3 = prune_directories (w_fs w) (os_loc (s_cwd E) (key_dir p k))).
    { unfold close_context in Ec. apply op_cases in Ec as [(-> & -> & _)|Ec]; [auto|].
      cbn [c_mnt logged w_mounts w_fs] in Ec. rewrite M2, Hm, F2 in Ec. unfold mount_close, new_mount in Ec. cbn [m_dir m_gitignore m_touched flat_map] in Ec.
      destruct (negb (o_gitignore p)); injection Ec as _ <-; cbn [set_fs w_fs]; auto. }
    assert (Hw3 : w' = w3) by (destruct rc; unfold ret in Hcl; congruence). subst w'. destruct Hp as [->| ->]; [auto|]. split.
    - intros q. apply prune_directories_file_at. assumption.
    - intros q Hq. apply prune_directories_is_dir in Hq as [Hq _]; assumption. }
  assert (Hdone : forall w2, w_fs w2 = w_fs w -> w' = w2 -> (forall q, file_at (w_fs w') q = file_at (w_fs w) q) /\ (forall q, is_dir (w_fs w') q = true -> is_dir (w_fs w) q = true)).
  { intros w2 F2 ->. rewrite F2. auto. }
  unfold mbind at 1 in H. destruct (m_exists E J w1) as [re wa] eqn:Ee. unfold m_exists in Ee. apply op_cases in Ee as [(-> & -> & _)|Ee].
  { injection H as _ <-. apply (Hdone w1); auto. }
  injection Ee as <- <-. set (w2 := logged (EvStat J) w1) in *.
  destruct (exists_at _ J).
  - unfold mbind at 1 in H. unfold mbind at 1 in H. destruct (m_read E J w2) as [rr w3] eqn:Er.
    apply m_read_inv in Er as [[-> ->]|[-> Hr]]; [injection H as _ <-; apply (Hdone w2); auto|].
    destruct rr as [c|e]; [|injection H as _ <-; apply (Hdone (logged (EvRead J) w2)); auto].
    destruct c as [s|j]; [cbn in H; injection H as _ <-; apply (Hdone (logged (EvRead J) w2)); auto|].
    destruct (deserialize E n (Some (mkCtx i [])) (of_json j) (logged (EvRead J) w2)) as [rd w4] eqn:Ed.
    apply C32_deserialize_touches_nothing in Ed.
    2:{ apply Hj. unfold file_at. cbn [w2 w1 logged w_fs] in Hr. destruct (lookup (w_fs w) J) as [[c|]|]; congruence. }
    subst w4. destruct rd as [o|e]; [|injection H as _ <-; apply (Hdone (logged (EvRead J) w2)); auto].
    eapply Hx; [| |exact H]; reflexivity.
  - unfold mbind at 1 in H. destruct d as [v|]; [|destruct df as [v|]]; unfold ret at 1, raise in H.
    + eapply Hx; [| |exact H]; reflexivity.
    + eapply Hx; [| |exact H]; reflexivity.
    + injection H as _ <-. apply (Hdone w2); auto.
Qed.

(** ** A record whose file is missing *)
(** Looking for it creates the directory the file would be in, with every directory above it, and nothing else; the
    directory stays, so that looking is not without a trace. *)
Theorem C86_missing_file_leaves_directory : forall E n cx dir comps ty t cs base pre we re w,
  absolute (s_cwd E) -> absolute dir -> no_dotdot dir -> well_formed (w_fs w) -> s_limit E = None -> s_validate E = false ->
  context_at E w cx dir comps -> places t cs -> sto_ty E ty <> None ->
  let l := location (s_cwd E) dir ++ comps ++ cs in
  (forall q, inside l q -> file_at (w_fs w) q = None) -> is_dir (w_fs w) l = false ->
  exists r w', content_of E n (ORec (OUnloaded (Some ty) t base cx) t pre we re) w = (Ok r, w') /\
    (forall q, file_at (w_fs w') q = file_at (w_fs w) q) /\
    forall q, is_dir (w_fs w') q = true <-> is_dir (w_fs w) q = true \/ (inside l q /\ q <> l).
Proof.
  intros E n cx dir comps ty t cs base pre we re w Hc Hd Hnd Hw Hl Hv Hcx Hp Hty l Hf Hdir.
  destruct (C35_missing_file E n cx dir comps ty t cs base pre we re w Hc Hd Hnd Hw Hl Hv Hcx Hp Hty Hf Hdir) as (w' & H & Hfs).
  eexists _, w'. split; [exact H|]. split; [exact Hfs|].
  destruct (context_at_ok E w cx dir comps Hc Hd Hw Hcx) as [Hok Hs].
  pose proof (location_no_dotdot (s_cwd E) dir Hd (no_dotdot_comps dir Hnd)) as HD. pose proof (places_clean t cs Hp) as [_ Hne].
  destruct (exists_last Hne) as (l0 & z & ->).
  destruct (read_place_dirs E (c_mnt cx) dir Hc Hd comps cx t (l0 ++ [z]) w Hl HD Hok Hs Hp) as (local & nt & w1 & H1 & H2 & H3 & H4 & H6 & H5).
  { rewrite removelast_last. intros q Hq. apply Hf. apply is_prefix_iff in Hq as [r Hr]. exists (r ++ [z]). unfold l. rewrite !app_assoc in *. rewrite Hr. reflexivity. }
  assert (Hdirs : forall q, is_dir (w_fs w') q = is_dir (w_fs w1) q).
  { intros q. unfold content_of, rec_load, ctx_read, attempt in H. unfold mbind at 1 in H. unfold mbind at 1 in H. unfold mbind at 1 in H. unfold mbind at 1 in H. rewrite H1 in H.
    unfold mbind at 1 in H. rewrite (H5 w1 H3) in H. fold l in H. unfold read_storable in H.
    assert (Hlk : lookup (w_fs w1) l = None).
      { assert (Hfl : file_at (w_fs w1) l = None) by (rewrite H4; apply Hf; exists []; rewrite app_nil_r; reflexivity).
        assert (Hdl : is_dir (w_fs w1) l = false).
        { rewrite H6, Hdir, removelast_last. cbn [orb]. destruct (is_prefix l _) eqn:Ex; [|reflexivity]. exfalso. apply is_prefix_iff in Ex as [r Hr].
          apply (f_equal (@List.length _)) in Hr. unfold l in Hr. rewrite !app_length in Hr. cbn in Hr. lia. }
        unfold file_at in Hfl. unfold is_dir in Hdl. destruct (lookup (w_fs w1) l) as [[|]|]; congruence. }
    assert (Hm : m_read E l w1 = (Exn FileNotFoundError, logged (EvRead l) w1)).
    { unfold m_read. rewrite op_free by assumption. cbn [logged w_fs]. rewrite Hlk. reflexivity. }
    destruct (sto_ty E ty) as [[c|dt]|]; [| |congruence]; unfold mbind at 1 in H; rewrite Hm in H; unfold mbind, invalid_found in H; rewrite Hv in H; unfold ret in H;
      injection H as <-; reflexivity. }
  intros q. rewrite Hdirs, H6, removelast_last, orb_true_iff, is_prefix_iff. split; (intros [Hq|Hq]; [auto|right]).
  - destruct Hq as [r Hr]. split; [exists (r ++ [z]); unfold l; rewrite !app_assoc in *; rewrite Hr; reflexivity|].
    intros ->. apply (f_equal (@List.length _)) in Hr. unfold l in Hr. rewrite !app_length in Hr. cbn in Hr. lia.
  - destruct Hq as [[r Hr] Hn]. destruct (exists_last (l := r)) as (r' & z' & ->); [intros ->; rewrite app_nil_r in Hr; auto|].
    exists r'. unfold l in Hr. rewrite !app_assoc in *. apply app_inj_tail in Hr as [Hr _]. exact Hr.
Qed.

(** A missing record in the second of two keys: reading it makes the key's directory. *)
Example C86_missing_example :
  let E := ex_env "auto" false None in
  let r := ORec (OUnloaded (Some ($"_sto__blob")) (from_path ($"x.bin")) ($"/proj/.dman/gen/m/") (mkCtx 1 [])) (from_path ($"x.bin")) false None None in
  let l := location ($"/proj") ($"/proj/.dman/gen/m") ++ [] ++ [$"x.bin"] in
  context_at E ex_two (mkCtx 1 []) ($"/proj/.dman/gen/m") [] /\ places (from_path ($"x.bin")) [$"x.bin"] /\ sto_ty E ($"_sto__blob") <> None /\
  (forall q, inside l q -> file_at (w_fs ex_two) q = None) /\ is_dir (w_fs ex_two) l = false /\ ordinary_mounts E ex_two /\
  is_dir (w_fs ex_two) [$"proj"; $".dman"; $"gen"; $"m"] = false /\
  is_dir (w_fs (snd (content_of E 3 r ex_two))) [$"proj"; $".dman"; $"gen"; $"m"] = true.
Proof.
  cbn zeta. destruct (two_contexts (ex_env "auto" false None) eq_refl) as [_ C2]. split; [exact C2|]. split; [exact places_example|]. split; [discriminate|].
  split; [apply no_file_above; vm_compute; reflexivity|]. split; [vm_compute; reflexivity|]. split; [|split; vm_compute; reflexivity].
  intros i m Hm. destruct i as [|[|i]]; [| |destruct i; discriminate].
  - injection Hm as <-. exists ($"/proj/.dman/gen/k"). split; [eexists; reflexivity|]. exists (Dir []), true, true, [], (Dir []). split; [apply Forall_nil|reflexivity].
  - injection Hm as <-. exists ($"/proj/.dman/gen/m"). split; [eexists; reflexivity|]. exists (Dir []), true, true, [], (Dir []). split; [apply Forall_nil|reflexivity].
Qed.
(** A key whose json has one record marked for preloading and one that is not; the .gitignore is gone. *)
Definition look_world (preload : bool) : world :=
  mkWorld (Dir [($"proj", Dir [($".dman", Dir [($"gen", Dir [($"k", Dir
    [($"x.bin", File (Text ($"b")));
     ($"k.json", File (Json (JDict [($"_ser__type", JStr ($"_ser__record")); ($"_ser__content",
        JDict ([($"target", JStr ($"x.bin")); ($"sto_type", JStr ($"_sto__blob"))] ++ (if preload then [($"preload", JBool true)] else [])))])))])])])])]) [] [] 0 [].
(** Loading it reads the record and writes the .gitignore anew: loading may write, so the exception in
    [C86_load_changes_no_data] is needed. Without the mark nothing is written. *)
Theorem C86_load_changes_no_file_refuted : exists E p k w o w' q,
  absolute (s_cwd E) /\ well_formed (w_fs w) /\ load E 4 p k None None w = (Ok o, w') /\ q = ignore_at E p k /\
  file_at (w_fs w) q = None /\ file_at (w_fs w') q <> None.
Proof.
  let v := eval vm_compute in (load (ex_env "auto" false None) 4 ex_opts ($"k") None None (look_world true)) in
  match v with (Ok ?o, ?w') => exists (ex_env "auto" false None), ex_opts, ($"k"), (look_world true), o, w', [$"proj"; $".dman"; $"gen"; $".gitignore"] end.
  split; [eexists; reflexivity|]. split; [vm_compute; repeat constructor; cbn; intuition discriminate|]. split; [vm_compute; reflexivity|]. split; [vm_compute; reflexivity|].
  split; [vm_compute; reflexivity|vm_compute; discriminate].
Qed.
Print Assumptions C86_reading_changes_no_file.
Print Assumptions C86_load_changes_no_data.
Print Assumptions C86_lazy_load_changes_nothing.
Print Assumptions C86_missing_file_leaves_directory.
Print Assumptions C86_load_changes_no_file_refuted.
