(** What removing the files of deleted items does to the rest: only files the log shows as removed change. *)
From Coq Require Import List Ascii String Bool Arith ZArith Lia.
From Verif Require Import Base PosixModel FsModel PathModel SerialModel StoreModel StoreFrame StoreMount StoreSpec StoreLocal StorePlace
     StoreRecord RoundSpec RoundProof PathSpec MountSpec DirSpec PosixProof FsProof DirProof TargetProof MountProof HistoryProof PathFacts SerialSpec SerialProof.
Import ListNotations.

Section Drop.
Variable E : senv.
Variable i : nat.
Variable D0 : str.
Hypothesis Hcwd : absolute (s_cwd E).
Hypothesis Hdir : absolute D0.
Hypothesis Hret : s_retouch E = $"auto" \/ s_retouch E = $"quit".
Let D := location (s_cwd E) D0.
Notation ok := (mnt_ok i D0).
Notation claimed := (claimed E i D0).
Let Hun := Hun E Hret.

Definition dropped (w w' : world) : Prop :=
  ok w -> ok w' /\ exists evs, w_log w' = evs ++ w_log w /\ (forall l, ~ In (EvWrite l) evs) /\
    forall l, (forall p, In (EvRemove i p) evs -> requested (s_cwd E) D0 p <> l) ->
      (claimed w l -> claimed w' l) /\ file_at (w_fs w') l = file_at (w_fs w) l.

Lemma dropped_refl w : dropped w w.
Proof. intros H. split; [assumption|]. exists []. split; [reflexivity|]. split; [intros l []|]. auto. Qed.
Lemma dropped_trans a b c : dropped a b -> dropped b c -> dropped a c.
Proof.
  intros H1 H2 Ha. destruct (H1 Ha) as (Hb & e1 & L1 & N1 & F1). destruct (H2 Hb) as (Hc & e2 & L2 & N2 & F2). split; [assumption|].
  exists (e2 ++ e1). split; [rewrite L2, L1, app_assoc; reflexivity|]. split.
  - intros l Hl. apply in_app_or in Hl as [Hl|Hl]; [eapply N2|eapply N1]; eassumption.
  - intros l Hl. destruct (F1 l) as [C1 G1]; [intros p Hp; apply Hl, in_or_app; auto|]. destruct (F2 l) as [C2 G2]; [intros p Hp; apply Hl, in_or_app; auto|].
    split; [auto|congruence].
Qed.
Lemma dropped_logged ev w : (forall l, ev <> EvWrite l) -> dropped w (logged ev w).
Proof.
  intros Hn H. split; [exact H|]. exists [ev]. split; [reflexivity|]. split; [intros l [Hl|[]]; eapply Hn; eassumption|].
  intros l _. split; [intros Hc; exact Hc|reflexivity].
Qed.
Lemma dropped_prepare j p ch w : In (eff_choice (s_retouch E) ch) unattended -> dropped w (snd (m_prepare E j p ch w)).
Proof.
  intros Hch Hok. destruct (m_prepare E j p ch w) as [r w'] eqn:H. cbn [snd].
  assert (Hok' : ok w').
  { assert (Ho : only i D0 (fun _ => True) w w') by (eapply (only_prepare E i D0 Hcwd Hdir (fun _ => True)); [intros _; eassumption|exact H]). apply Ho. exact Hok. }
  split; [assumption|]. apply m_prepare_inv in H. destruct H as [Hl|Hn|m r fs m' inp Hm Hp].
  - exists []. split; [reflexivity|]. split; [intros l []|]. auto.
  - exists [EvPrepare j p]. split; [reflexivity|]. split; [intros l [Hl|[]]; discriminate|]. intros l _. split; [intros Hc; exact Hc|reflexivity].
  - exists [EvPrepare j p]. split; [reflexivity|]. split; [intros l [Hl|[]]; discriminate|]. intros l _. split; [|cbn [w_fs]; eapply prepare_files; eassumption].
    intros (m1 & u & rr & C1 & C2 & C3 & ->). destruct (Nat.eq_dec j i) as [->|Hji].
    + rewrite Hm in C1. injection C1 as <-. destruct Hok as [(m2 & M1 & M2 & M3) _]. rewrite Hm in M1. injection M1 as <-.
      destruct (prepare_spec (s_cwd E) (s_retouch E) (w_fs w) m p ch (w_inputs w)) as (r1 & fs1 & m2 & Hq & Hs1);
        [assumption|rewrite M2; assumption|assumption|assumption|].
      rewrite Hp in Hq. injection Hq as <- <- <- _. exists m', u, rr. cbn [w_mounts]. rewrite nth_set_nth.
      destruct (Nat.eq_dec i i) as [_|]; [|congruence]. rewrite Hm. split; [reflexivity|]. split; [|auto].
      inversion Hs1 as [| |t0 rest t' rest' touched' r0 fs' K1 K2 K3 K4 K5 K6 K7 K8 K9 K10]; subst; [assumption|assumption|]. cbn [set_touched m_touched].
      destruct K9 as [[-> _]|[-> _]]; [apply in_or_app; auto|assumption].
    + exists m1, u, rr. cbn [w_mounts]. rewrite nth_set_nth. destruct (Nat.eq_dec i j) as [|_]; [congruence|]. auto.
Qed.
Lemma dropped_remove p w : dropped w (snd (m_remove E i p w)).
Proof.
  intros Hok. destruct (m_remove E i p w) as [r w'] eqn:H. cbn [snd].
  assert (Hok' : ok w') by (apply (only_remove E i D0 Hcwd Hdir (fun _ => True) (fun _ _ => I) p w r w' Hok H); exact Hok).
  split; [assumption|]. apply m_remove_inv in H. destruct H as [Hl|Hn|m r fs m' Hm Hp].
  - exists []. split; [reflexivity|]. split; [intros l []|]. auto.
  - exists [EvRemove i p]. split; [reflexivity|]. split; [intros l [Hl|[]]; discriminate|]. intros l _. split; [intros Hc; exact Hc|reflexivity].
  - exists [EvRemove i p]. split; [reflexivity|]. split; [intros l [Hl|[]]; discriminate|]. intros l Hx. specialize (Hx p (or_introl eq_refl)).
    destruct Hok as [(m0 & Hm0 & Hd & Ht) Hw]. rewrite Hm in Hm0. injection Hm0 as <-. split.
    + intros (m1 & u & rr & C1 & C2 & C3 & ->). rewrite Hm in C1. injection C1 as <-. exists m', u, rr. cbn [w_mounts]. rewrite nth_set_nth.
      destruct (Nat.eq_dec i i) as [_|]; [|congruence]. rewrite Hm. split; [reflexivity|]. split; [|auto].
      assert (Hd' : absolute (m_dir m)) by (rewrite Hd; assumption).
      unfold mount_remove in Hp. destruct (untrack_spec (s_cwd E) m p Hcwd Hd' Ht) as [[Hu _]|(t & rest & m2 & _ & U2 & U3 & Hu & _ & _ & _ & U4)]; rewrite Hu in Hp.
      * inversion Hp; subst. assumption.
      * assert (Hin : In u (m_touched m2)).
        { apply U4. split; [assumption|]. intros Hk. apply (rel_target_key_inj _ _ _ _ C3 U2) in Hk. subst rest. apply Hx. rewrite <- Hd, U3, Hd. reflexivity. }
        destruct (lookup _ _) as [[|[|]]|]; inversion Hp; subst; assumption.
    + cbn [w_fs]. destruct (mount_remove_cases _ _ _ _ _ _ _ _ Hcwd Hp) as [(e & _ & _ & -> & _)|[(_ & _ & ->)|(Hu & _ & Hf & _)]]; [reflexivity|reflexivity|].
      apply Hf. rewrite Hd. congruence.
Qed.
Lemma fns_dropped n : pres_fns (fun _ => True) dropped i (fun _ => False) (depth E n).
Proof.
  apply depth_pres with (W := fun _ => False).
  - exact dropped_refl.
  - exact dropped_trans.
  - auto.
  - intros c [].
  - intros w _ H. split; [exact H|]. exists []. split; [reflexivity|]. split; [intros l []|]. intros l _. split; [intros Hc; exact Hc|reflexivity].
  - intros l w _. destruct (m_read E l w) as [r w'] eqn:H. cbn [snd]. apply m_read_inv in H as [[_ ->]|[-> _]]; [apply dropped_refl|apply dropped_logged; discriminate].
  - intros j p w _. apply dropped_prepare. right. right. right. left. reflexivity.
  - intros p w _. apply dropped_prepare. exact Hun.
  - intros p w _. apply dropped_remove.
  - intros l c [].
  - intros cx t w local nt w' [].
Qed.
Lemma rm_dropped n cx o w r w' : c_mnt cx = i -> f_rm (depth E n) cx o w = (r, w') -> dropped w w'.
Proof. intros Hc H. pose proof (fns_dropped n) as (_ & _ & Hr). specialize (Hr cx o Hc w I). rewrite H in Hr. exact Hr. Qed.
Lemma rm_all_dropped n cx l : c_mnt cx = i -> forall w r w', rm_all (depth E n) (Some cx) l w = (r, w') -> dropped w w'.
Proof.
  intros Hc w r w' H. assert (Hp : pres (fun _ => True) dropped (mapM (f_rm (depth E n) cx) l)).
  { apply pres_mapM; [exact dropped_refl|exact dropped_trans|auto|]. intros x _ w0 _. destruct (f_rm (depth E n) cx x w0) eqn:Ex. eapply rm_dropped; eassumption. }
  specialize (Hp w I). cbn [rm_all] in H. rewrite H in Hp. exact Hp.
Qed.

(** Files come into being only by writing. *)
Definition made (w w' : world) : Prop :=
  (well_formed (w_fs w) -> well_formed (w_fs w')) /\
  exists evs, w_log w' = evs ++ w_log w /\ forall l, file_at (w_fs w) l = None -> file_at (w_fs w') l = None \/ In (EvWrite l) evs.
Lemma made_refl w : made w w.
Proof. split; [auto|]. exists []. split; [reflexivity|]. auto. Qed.
Lemma made_trans a b c : made a b -> made b c -> made a c.
Proof.
  intros (W1 & e1 & L1 & F1) (W2 & e2 & L2 & F2). split; [auto|]. exists (e2 ++ e1). split; [rewrite L2, L1, app_assoc; reflexivity|].
  intros l Hl. destruct (F1 l Hl) as [Hb|Hb]; [|right; apply in_or_app; auto]. destruct (F2 l Hb) as [Hc|Hc]; [auto|right; apply in_or_app; auto].
Qed.
Lemma made_logged ev w : made w (logged ev w).
Proof. split; [auto|]. exists [ev]. split; [reflexivity|]. auto. Qed.
Lemma made_prepare j p ch w : made w (snd (m_prepare E j p ch w)).
Proof.
  destruct (m_prepare E j p ch w) as [r w'] eqn:H. apply m_prepare_inv in H. destruct H as [Hl|Hn|m r fs m' inp Hm Hp]; cbn [snd].
  - apply made_refl.
  - apply made_logged.
  - split; [cbn [w_fs]; eapply prepare_wf; eassumption|]. exists [EvPrepare j p]. split; [reflexivity|].
    intros l Hl. left. rewrite <- Hl. cbn [w_fs]. eapply prepare_files; eassumption.
Qed.
Lemma made_remove j p w : made w (snd (m_remove E j p w)).
Proof.
  destruct (m_remove E j p w) as [r w'] eqn:H. apply m_remove_inv in H. destruct H as [Hl|Hn|m r fs m' Hm Hp]; cbn [snd].
  - apply made_refl.
  - apply made_logged.
  - split; [cbn [w_fs]; eapply mount_remove_wf; eassumption|]. exists [EvRemove j p]. split; [reflexivity|]. intros l Hl. left. cbn [w_fs].
    assert (Hdel : forall q, (exists c, lookup (w_fs w) q = Some (File c)) \/ lookup (w_fs w) q = Some (Dir []) -> file_at (delete_at (w_fs w) q) l = None).
    { intros q Hq. destruct (delete_leaf _ _ Hq) as (F1 & _ & F3). destruct (loc_eq_dec l q) as [->|Hn]; [|rewrite F1 by assumption; assumption].
      destruct q as [|x q]; [exact Hl|]. assert (Hx : x :: q <> []) by discriminate. specialize (F3 Hx). unfold exists_at in F3. unfold file_at.
      destruct (lookup (delete_at (w_fs w) (x :: q)) (x :: q)) as [[|]|]; congruence. }
    unfold mount_remove in Hp. destruct (untrack _ m p true) as [m1|e]; [|inversion Hp; subst; assumption].
    destruct (lookup (w_fs w) _) as [[c|[|x es]]|] eqn:El; inversion Hp; subst; try assumption; apply Hdel; eauto.
Qed.
Lemma made_write l c w : made w (snd (m_write E l c w)).
Proof.
  destruct (m_write E l c w) as [r w'] eqn:H. apply m_write_inv in H. destruct H as [_|e _|fs Hw]; [apply made_refl|apply made_logged|].
  cbn [snd]. split; [cbn [set_fs logged w_fs]; eapply write_file_wf; eassumption|]. exists [EvWrite l]. split; [reflexivity|].
  intros q Hq. cbn [set_fs logged w_fs]. rewrite (write_file_lookup _ _ _ _ Hw). destruct (loc_eq_dec q l) as [->|]; [right; left; reflexivity|left; assumption].
Qed.
Lemma fns_made n : pres_fns (fun _ => True) made i (fun cx => c_mnt cx = i) (depth E n).
Proof.
  apply depth_pres with (W := fun _ => True).
  - exact made_refl.
  - exact made_trans.
  - auto.
  - auto.
  - intros w _. split; [auto|]. exists []. split; [reflexivity|]. auto.
  - intros l w _. destruct (m_read E l w) as [r w'] eqn:H. cbn [snd]. apply m_read_inv in H as [[_ ->]|[-> _]]; [apply made_refl|apply made_logged].
  - intros j p w _. apply made_prepare.
  - intros p w _. apply made_prepare.
  - intros p w _. apply made_remove.
  - intros l c _ w _. apply made_write.
  - intros cx t w local nt w' Hc _ Hp. split; [|auto]. unfold ctx_prepare, mbind, lift, raise in Hp.
    destruct (ctx_absolute cx t); [|discriminate]. destruct (fspath _); [|discriminate].
    destruct (m_prepare _ _ _ _ _) as [[u|] w1]; [|discriminate]. destruct (t_name u); [|discriminate].
    destruct (t_subdir u) as [s|]; [|discriminate]. destruct (Target _ _ _ _); inversion Hp; subst. destruct s; reflexivity.
Qed.
Lemma ser_made n cx co o w r w' : c_mnt cx = i -> f_ser (depth E n) (Some cx) co o w = (r, w') -> made w w'.
Proof. intros Hc H. pose proof (fns_made n) as (Hr & _). specialize (Hr (Some cx) co o (fun c Hx => eq_ind cx (fun c => c_mnt c = i) Hc c (f_equal (fun y => match y with Some z => z | None => cx end) Hx)) w I). rewrite H in Hr. exact Hr. Qed.
Lemma rm_made n cx o w r w' : c_mnt cx = i -> f_rm (depth E n) cx o w = (r, w') -> made w w'.
Proof. intros Hc H. pose proof (fns_made n) as (_ & _ & Hr). specialize (Hr cx o Hc w I). rewrite H in Hr. exact Hr. Qed.

Lemma rm_all_made n cx l : c_mnt cx = i -> forall w r w', rm_all (depth E n) (Some cx) l w = (r, w') -> made w w'.
Proof.
  intros Hc w r w' H. assert (Hp : pres (fun _ => True) made (mapM (f_rm (depth E n) cx) l)).
  { apply pres_mapM; [exact made_refl|exact made_trans|auto|]. intros x _ w0 _. destruct (f_rm (depth E n) cx x w0) eqn:Ex. eapply rm_made; eassumption. }
  specialize (Hp w I). cbn [rm_all] in H. rewrite H in Hp. exact Hp.
Qed.

(** Removing a record: its file is gone. *)
Lemma untrack_in m p rest : absolute (m_dir m) -> touched_ok (m_touched m) -> location (s_cwd E) (m_dir m) = comps_cp (m_dir m) ->
  requested (s_cwd E) (m_dir m) p = location (s_cwd E) (m_dir m) ++ rest -> exists m1, untrack (s_cwd E) m p true = Ok m1.
Proof.
  intros Hda M3 HD Hreq. destruct (untrack_spec (s_cwd E) m p Hcwd Hda M3) as [[_ Hx]|(t & rr & m1 & _ & _ & _ & Hu & _)]; [|eauto]. exfalso.
  unfold normalize, mount_abspath in Hx. rewrite contains_eq in Hx by assumption.
  rewrite <- requested_join2, Hreq, HD in Hx.
  assert (Hpre : is_prefix (comps_cp (m_dir m)) (comps_cp (m_dir m) ++ rest) = true) by (apply is_prefix_iff; eexists; reflexivity).
  rewrite Hpre in Hx. cbn [bind] in Hx.
  assert (Hc : contains (s_cwd E) (m_dir m) (join2 (m_dir m) p) = Ok true) by (rewrite contains_eq, <- requested_join2, Hreq, HD, Hpre by assumption; reflexivity).
  apply contains_true in Hc as (_ & rr & H1 & H2); [|assumption|assumption].
  rewrite (relpath_below (s_cwd E) _ (m_dir m) rr) in Hx;
    [discriminate|assumption|apply absolute_nonnil; assumption|apply join2_nonnil; assumption|assumption|assumption].
Qed.
Lemma de_unmarked n cx x p w o w' : s_validate E = true -> f_de (depth E n) cx x p w = (Ok o, w') -> forall m, o <> OMark m.
Proof.
  intros Hval H m ->. destruct n as [|n]; [discriminate|]. cbn [depth f_de] in H. unfold de_body in H.
  assert (Hx : forall q, (o <- q;; match o with OMark _ => _ <- invalid_found E;; ret o | _ => ret o end) w <> (Ok (OMark m), w')).
  { intros q Hq. apply mbind_ok in Hq as (o & w1 & _ & Hq). destruct o; try discriminate Hq. apply mbind_ok in Hq as (u & w2 & Hq & _). apply invalid_ok in Hq as [_ Hq]. congruence. }
  destruct p as [[| | | |]| |]; try (exact (Hx _ H)). discriminate.
Qed.
Lemma load_unmarked n content re w v c' re' w' : s_validate E = true -> (forall m, content <> OMark m) ->
  rec_load E (depth E n) content re w = (Ok (v, c', re'), w') -> forall m, v <> OMark m.
Proof.
  intros Hval Hmk H m ->. destruct content as [| | | | | | | |ty tt b cx| |]; cbn [rec_load] in H; try (unfold ret in H; discriminate H); try (eapply Hmk; reflexivity).
  apply mbind_ok in H as (x & w1 & H & H1).
  assert (Hx : x = OMark m) by (destruct x; unfold ret in H1; injection H1; congruence). subst x. clear H1.
  unfold ctx_read in H. apply mbind_ok in H as (r & w2 & Ha & H). destruct r as [o|e].
  - unfold ret in H. injection H as -> ->. apply attempt_ok in Ha. 
    apply mbind_ok in Ha as ([local nt] & w3 & _ & Ha). apply mbind_ok in Ha as (l & w4 & _ & Ha). unfold read_storable in Ha.
    destruct (match ty with Some t => sto_ty E t | None => None end) as [[c|d]|]; [| |discriminate].
    + apply mbind_ok in Ha as (y & w5 & _ & Ha). apply mbind_ok in Ha as (dd & w6 & _ & Ha). discriminate.
    + apply mbind_ok in Ha as ([y|y] & w5 & _ & Ha); [discriminate|]. eapply de_unmarked; [exact Hval|exact Ha|reflexivity].
  - assert (Hi : forall mk, (_ <- invalid_found E;; ret (OMark mk)) w2 <> (Ok (OMark m), w1)).
    { intros mk Hq. apply mbind_ok in Hq as (u & w3 & Hq & _). apply invalid_ok in Hq as [_ Hq]. congruence. }
    destruct e; try (exact (Hi _ H)); cbn [is_ser_error] in H; try discriminate.
Qed.
Lemma load_dropped n content re w r w' : rec_load E (depth E n) content re w = (r, w') -> dropped w w'.
Proof.
  intros H. assert (Hp : pres (fun _ => True) dropped (rec_load E (depth E n) content re)).
  { eapply (pres_rec_load E (fun _ => True) dropped) with (i := i) (S := fun _ => False); try (apply fns_dropped).
    - exact dropped_refl.
    - exact dropped_trans.
    - auto.
    - intros l w0 _. destruct (m_read E l w0) as [r0 w1] eqn:H0. cbn [snd]. apply m_read_inv in H0 as [[_ ->]|[-> _]]; [apply dropped_refl|apply dropped_logged; discriminate].
    - intros j p w0 _. apply dropped_prepare. right. right. right. left. reflexivity. }
  specialize (Hp w I). rewrite H in Hp. exact Hp.
Qed.
Lemma rm_rec_gone n comps cx cs content t pre we re w o' w' : s_validate E = true -> D = comps_cp D0 -> sctx i comps cx -> places t cs ->
  (forall m, content <> OMark m) -> ok w -> f_rm (depth E n) cx (ORec content t pre we re) w = (Ok o', w') ->
  file_at (w_fs w') (D ++ comps ++ cs) = None.
Proof.
  intros Hval HD Hs Hp Hmk Hok H. pose proof Hs as (Hi & _ & _). destruct n as [|n]; [discriminate|]. cbn [depth f_rm rm_body] in H. unfold rm_rec in H.
  apply mbind_ok in H as ([[v c'] re'] & w1 & H1 & H).
  destruct (load_dropped _ _ _ _ _ _ H1 Hok) as [Hok1 _]. pose proof (load_unmarked _ _ _ _ _ _ _ _ Hval Hmk H1) as Hv. clear H1.
  set (rest := comps ++ cs). assert (Hne : rest <> []).
  { destruct Hp as (sd & nm & _ & _ & _ & _ & _ & ->). unfold rest. intros Hx. apply app_eq_nil in Hx as [_ Hx]. apply app_eq_nil in Hx as [_ Hx]. discriminate. }
  assert (H' : (t' <- rec_target E c' t;; a <- lift (ctx_absolute cx t');; p <- lift (fspath a);; r <- attempt (m_remove E (c_mnt cx) p);;
      _ <- match r with Ok _ | Exn MountException => ret tt | Exn e => raise e end;;
      v' <- f_rm (depth E n) (ctx_join cx match t_subdir a with Some d => d | None => [] end) c';; ret (ORec v' t' pre we re')) w1 = (Ok o', w')).
  { destruct v; try exact H. exfalso. eapply Hv. reflexivity. }
  clear H. apply mbind_ok in H' as (t' & w2 & H2 & H).
  assert (Ht : t' = t /\ w2 = w1).
  { destruct Hp as (sd & nm & P1 & P2 & _). unfold rec_target in H2. destruct t as [s0 s1 s2]. cbn in P1. subst s0. unfold t_name in P2. cbn in P2.
    destruct s1 as [s1|]; [|discriminate]. destruct s2 as [s2|]; [|discriminate]. cbn in H2. unfold ret in H2. injection H2 as <- <-. auto. }
  destruct Ht as [-> ->]. clear H2. destruct (placed E i D0 comps cx t cs Hs Hp) as (a & p & A1 & A2 & A3). fold D in A3. fold rest in A3.
  apply mbind_ok in H as (a' & w2 & H2 & H). unfold lift in H2. rewrite A1 in H2. injection H2 as <- <-.
  apply mbind_ok in H as (p' & w2 & H2 & H). unfold lift in H2. rewrite A2 in H2. injection H2 as <- <-.
  apply mbind_ok in H as (r & w2 & H2 & H). apply mbind_ok in H as (u & w3 & H3 & H). apply mbind_ok in H as (v' & w4 & H4 & H). unfold ret in H. injection H as _ <-.
  rewrite Hi in H2.
  assert (Hd2 : dropped w1 w2). { pose proof (dropped_remove p w1) as Hd. unfold attempt in H2. destruct (m_remove E i p w1) as [r0 wr]. injection H2 as _ <-. exact Hd. }
  destruct (Hd2 Hok1) as [Hok2 _].
  assert (Hr : r = Ok u \/ exists e, r = Exn e /\ e = MountException).
  { destruct r as [[]|e]; [destruct u; auto|]. right. exists e. split; [reflexivity|]. destruct e; try discriminate H3. reflexivity. }
  assert (w3 = w2) by (destruct Hr as [->|(e & -> & ->)]; unfold ret in H3; injection H3; auto). subst w3.
  assert (Hnone : file_at (w_fs w2) (D ++ rest) = None).
  { unfold attempt in H2. destruct (m_remove E i p w1) as [r0 wr] eqn:Em. injection H2 as <- <-. apply m_remove_inv in Em.
    destruct Em as [Hl|Hn|m r0 fs m' Hm Hpr].
    - destruct Hr as [Hr|(e & Hr & ->)]; discriminate Hr.
    - destruct Hr as [Hr|(e & Hr & ->)]; discriminate Hr.
    - destruct Hok1 as [(m0 & Hm0 & Hd & Htk) Hw]. rewrite Hm in Hm0. injection Hm0 as <-.
      destruct (untrack_in m p rest) as [m1 Hu]; [rewrite Hd; assumption|assumption|rewrite Hd; exact HD|rewrite Hd; exact A3|].
      cbn [w_fs]. destruct (mount_remove_cases _ _ _ _ _ _ _ _ Hcwd Hpr) as [(e & Hx & _)|[(_ & Hx & _)|(_ & _ & _ & _ & Hx)]].
      + congruence.
      + destruct Hr as [Hr|(e & Hr & ->)]; congruence.
      + rewrite Hd, A3 in Hx. assert (Hn0 : D ++ rest <> []) by (intros Hy; apply app_eq_nil in Hy as [_ Hy]; contradiction).
        specialize (Hx Hn0). unfold exists_at in Hx. unfold file_at. destruct (lookup fs (D ++ rest)); [discriminate|reflexivity]. }
  assert (Hj : c_mnt (ctx_join cx match t_subdir a with Some d => d | None => [] end) = i) by (rewrite join_mnt; assumption).
  destruct (rm_made _ _ _ _ _ _ Hj H4) as (_ & e1 & L1 & F1). destruct (rm_dropped _ _ _ _ _ _ Hj H4 Hok2) as (_ & e2 & L2 & N2 & _).
  assert (e1 = e2) by (rewrite L1 in L2; apply app_inv_tail in L2; assumption). subst e2.
  destruct (F1 _ Hnone) as [Hx|Hx]; [exact Hx|exfalso; eapply N2; eassumption].
Qed.
(** Removing several objects: the file of each record among them is gone. *)
Lemma rm_all_gone n comps cx l : s_validate E = true -> D = comps_cp D0 -> sctx i comps cx ->
  forall w r w', ok w -> rm_all (depth E n) (Some cx) l w = (Ok r, w') ->
  forall content t pre we re cs, In (ORec content t pre we re) l -> places t cs -> (forall m, content <> OMark m) -> file_at (w_fs w') (D ++ comps ++ cs) = None.
Proof.
  intros Hval HD Hs. pose proof Hs as (Hi & _ & _). induction l as [|x l IH]; intros w r w' Hok H content t pre we re cs Hin Hp Hmk; [contradiction|].
  cbn [rm_all mapM] in H. apply mbind_ok in H as (y & w1 & H1 & H). apply mbind_ok in H as (ys & w2 & H2 & H). unfold ret in H. injection H as _ <-.
  destruct (rm_dropped _ _ _ _ _ _ Hi H1 Hok) as [Hok1 _].
  destruct Hin as [->|Hin]; [|exact (IH w1 ys w2 Hok1 H2 content t pre we re cs Hin Hp Hmk)].
  pose proof (rm_rec_gone _ _ _ _ _ _ _ _ _ _ _ _ Hval HD Hs Hp Hmk Hok H1) as Hg.
  destruct (rm_all_dropped n cx l Hi w1 (Ok ys) w2 H2 Hok1) as (_ & e2 & L2 & N2 & _).
  pose proof (rm_all_made n cx l Hi w1 (Ok ys) w2 H2) as Hmd.
  destruct Hmd as (_ & e1 & L1 & F1). assert (e1 = e2) by (rewrite L1 in L2; apply app_inv_tail in L2; assumption). subst e2.
  destruct (F1 _ Hg) as [Hx|Hx]; [exact Hx|exfalso; eapply N2; eassumption].
Qed.
End Drop.
