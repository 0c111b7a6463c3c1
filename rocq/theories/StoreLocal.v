(** Every change a save or a load makes lies inside the directory of its mount, apart from the .gitignore
    next to it. *)
From Coq Require Import List Ascii String Bool Arith ZArith Lia.
From Verif Require Import Base PosixModel FsModel PathModel SerialModel StoreModel StoreFrame StoreMount PathSpec MountSpec DirSpec
     PosixProof FsProof DirProof TargetProof MountProof HistoryProof PathFacts.
Import ListNotations.

Lemma splitext_name n : exists nt, Target None None (Some []) (Some n) = Ok nt /\ t_subdir nt = Some [] /\ t_name nt = Ok n.
Proof.
  unfold Target. pose proof (splitext_app n) as Hn. destruct (splitext n) as [st su]. cbn [fst snd] in Hn.
  eexists. split; [reflexivity|]. split; [reflexivity|]. unfold t_name. cbn. rewrite Hn. reflexivity.
Qed.

Section Local.
Variable E : senv.
Variable i : nat.
Variable D0 : str.
Hypothesis Hcwd : absolute (s_cwd E).
Hypothesis Hdir : absolute D0.
Hypothesis Hpol : In (s_retouch E) unattended.
Let D := location (s_cwd E) D0.

(** Mount [i] has directory [D0] and only targets inside it. *)
Definition mnt_ok (w : world) : Prop :=
  (exists m, nth_error (w_mounts w) i = Some m /\ m_dir m = D0 /\ touched_ok (m_touched m)) /\ well_formed (w_fs w).
Variable A : loc -> Prop.
Hypothesis A_in : forall q, inside q D -> A q.
Definition only (w w' : world) : Prop :=
  (forall q, ~ A q -> file_at (w_fs w') q = file_at (w_fs w) q) /\ statics w' = statics w /\ (mnt_ok w -> mnt_ok w').
Lemma only_refl w : only w w.
Proof. repeat split; auto; apply H. Qed.
Lemma only_trans a b c : only a b -> only b c -> only a c.
Proof.
  intros (H1 & H2 & H3) (G1 & G2 & G3). repeat split; [|congruence|apply G3; auto|apply G3; auto].
  intros q Hq. rewrite G1, H1 by assumption. reflexivity.
Qed.
Lemma only_ok a b : mnt_ok a -> only a b -> mnt_ok b.
Proof. intros H (_ & _ & H3). auto. Qed.

Lemma mnt_ok_logged ev w : mnt_ok w -> mnt_ok (logged ev w).
Proof. intros H. exact H. Qed.
Lemma only_logged ev w : only w (logged ev w).
Proof. repeat split; auto; apply H. Qed.
Lemma only_prepare j p ch w r w' : (j = i -> In (eff_choice (s_retouch E) ch) unattended) ->
  m_prepare E j p ch w = (r, w') -> only w w'.
Proof.
  intros Hj H. apply m_prepare_inv in H. destruct H as [Hl|Hn|m r fs m' inp Hm Hp].
  - apply only_refl.
  - apply only_logged.
  - split; [|split].
    + intros q _. cbn [w_fs]. eapply prepare_files; eassumption.
    + unfold statics at 1. cbn [w_mounts]. eapply statics_set; [eassumption|]. eapply prepare_static; eassumption.
    + intros [(m0 & Hm0 & Hd & Ht) Hw]. split; [|cbn [w_fs]; eapply prepare_wf; eassumption]. cbn [w_mounts].
      rewrite nth_set_nth. destruct (Nat.eq_dec i j) as [<-|Hne]; [|eauto]. rewrite Hm. exists m'.
      rewrite Hm in Hm0. inversion Hm0; subst m0. split; [reflexivity|].
      destruct (prepare_spec (s_cwd E) (s_retouch E) (w_fs w) m p ch (w_inputs w)) as (r1 & fs1 & m1 & Hq & Hs);
        [assumption|rewrite Hd; assumption|assumption|apply Hj; reflexivity|].
      rewrite Hp in Hq. injection Hq as <- <- <- _. destruct Hs; [auto|auto|]. split; [exact Hd|assumption].
Qed.
Lemma only_remove p w r w' : mnt_ok w -> m_remove E i p w = (r, w') -> only w w'.
Proof.
  intros Hok H. apply m_remove_inv in H. destruct H as [Hl|Hn|m r fs m' Hm Hp].
  - apply only_refl.
  - apply only_logged.
  - destruct Hok as [(m0 & Hm0 & Hd & Ht) Hw]. rewrite Hm in Hm0. inversion Hm0; subst m0. split; [|split].
    + intros q Hq. cbn [w_fs]. destruct (mount_remove_cases _ _ _ _ _ _ _ _ Hcwd Hp) as [(e & _ & _ & -> & _)|[(_ & _ & ->)|(Hu & _ & Hf)]];
        [reflexivity|reflexivity|].
      assert (Hin : A (requested (s_cwd E) (m_dir m) p)).
      { apply A_in. unfold D. rewrite <- Hd. eapply untrack_inside; [assumption|rewrite Hd; assumption|eassumption]. }
      assert (Hne : q <> requested (s_cwd E) (m_dir m) p) by (intros ->; auto). apply Hf. exact Hne.
    + unfold statics at 1. cbn [w_mounts]. eapply statics_set; [eassumption|]. eapply mount_remove_static; eassumption.
    + intros _. split; [|cbn [w_fs]; eapply mount_remove_wf; eassumption]. cbn [w_mounts]. rewrite nth_set_nth.
      destruct (Nat.eq_dec i i) as [_|]; [|congruence]. rewrite Hm. exists m'. split; [reflexivity|].
      pose proof (mount_remove_static _ _ _ _ _ _ _ _ Hp) as Hs. unfold static in Hs. inversion Hs as [[Hs1 Hs2 Hs3]].
      split; [congruence|].
      assert (Hd' : absolute (m_dir m)) by (rewrite Hd; assumption).
      unfold mount_remove in Hp. destruct (untrack_spec (s_cwd E) m p Hcwd Hd' Ht) as [[Hu _]|(t & rest & m1 & _ & _ & _ & Hu & _ & Ht1 & _)];
        rewrite Hu in Hp; [inversion Hp; subst; assumption|].
      destruct (lookup _ _) as [[|[|]]|]; inversion Hp; subst; assumption.
Qed.
Lemma only_write l c w r w' : A l -> m_write E l c w = (r, w') -> only w w'.
Proof.
  intros Hl H. apply m_write_inv in H. destruct H as [_|e _|fs Hw]; [apply only_refl|apply only_logged|].
  split; [|split; [reflexivity|]].
  - intros q Hq. cbn [set_fs w_fs logged]. rewrite (write_file_lookup _ _ _ _ Hw). destruct (loc_eq_dec q l); [congruence|reflexivity].
  - intros [H1 H2]. split; [exact H1|]. cbn [set_fs w_fs logged]. eapply write_file_wf; eassumption.
Qed.
Lemma only_read l w r w' : m_read E l w = (r, w') -> only w w'.
Proof. intros H. apply m_read_inv in H as [[_ ->]|[-> _]]; [apply only_refl|apply only_logged]. Qed.

(** What a successful [Context.prepare] gives. *)
Lemma ctx_prepare_inv comps cx t ch w local nt w' : mnt_ok w -> sctx i comps cx ->
  In (eff_choice (s_retouch E) ch) unattended ->
  ctx_prepare E cx t ch w = (Ok (local, nt), w') ->
  exists a p u rest, ctx_absolute cx t = Ok a /\ fspath a = Ok p /\ m_prepare E i p ch w = (Ok u, w') /\
    rel_target u rest /\ t_subdir nt = Some [] /\
    sctx i (match removelast rest with [] => comps | l => l end) local /\
    t_name nt = Ok (match rest with [] => dot | _ => last rest [] end).
Proof.
  intros [(m & Hm & Hd & Ht) Hw] (Hi & Hs & Hc) Hch H. unfold ctx_prepare, mbind, lift in H.
  destruct (ctx_absolute cx t) as [a|e] eqn:Ea; [|discriminate]. destruct (fspath a) as [p|e] eqn:Ep; [|discriminate].
  rewrite Hi in H. destruct (m_prepare E i p ch w) as [[u|e] w1] eqn:Em; [|discriminate].
  assert (Hr : exists rest, rel_target u rest).
  { pose proof Em as Em0. apply m_prepare_inv in Em0. inversion Em0 as [| |m1 r fs m' inp Hm1 Hp Hr1 Hw1]; subst.
    rewrite Hm in Hm1. inversion Hm1; subst m1.
    destruct (prepare_spec (s_cwd E) (s_retouch E) (w_fs w) m p ch (w_inputs w)) as (r1 & fs1 & m2 & Hq & Hs1);
      [assumption|assumption|assumption|assumption|].
    rewrite Hp in Hq. injection Hq as <- <- <- _. inversion Hs1 as [| |t0 rest t' rest' touched' r0 fs' K1 K2 K3 K4 K5 K6 K7 K8 K9 K10]; subst.
    destruct K10 as [(K10 & _)|(e & K10 & _)]; [|discriminate]. inversion K10; subst. eauto. }
  destruct Hr as [rest Hr]. pose proof (rel_target_name _ _ Hr) as Hn. pose proof Hr as (Hcr & _ & _ & Hsd).
  rewrite Hn, Hsd in H. destruct (splitext_name (match rest with [] => dot | _ => last rest [] end)) as (nt' & E1 & E2 & E3).
  rewrite E1 in H. unfold ret in H. injection H as H1 H2 H3. subst local nt' w'.
  exists a, p, u, rest. repeat (split; [assumption || reflexivity|]). split; [|assumption].
  assert (Hcl : Forall clean (removelast rest)).
  { clear - Hcr. destruct rest as [|x l]; [constructor|]. rewrite (@app_removelast_last _ (x :: l) []) in Hcr by discriminate.
    apply Forall_app in Hcr as [Hcr _]. exact Hcr. }
  destruct (removelast rest) as [|y l] eqn:El.
  - cbn [join_sep ctx_join]. repeat split; assumption.
  - assert (Hj : exists c s, join_sep (y :: l) = c :: s).
    { inversion Hcl as [|? ? Hy _]; subst. destruct Hy as (Hy & _). destruct y; [congruence|]. destruct l; cbn; eauto. }
    destruct Hj as (c & s & Hj). rewrite Hj. cbn [ctx_join]. repeat split; [assumption|symmetry; exact Hj|assumption].
Qed.
Lemma ctx_prepare_local comps cx t ch w local nt w' : mnt_ok w -> sctx i comps cx ->
  In (eff_choice (s_retouch E) ch) unattended ->
  ctx_prepare E cx t ch w = (Ok (local, nt), w') ->
  (exists comps', sctx i comps' local) /\
  (forall w2 l w3, mnt_ok w2 -> ctx_path E local nt w2 = (Ok l, w3) -> inside l D).
Proof.
  intros Hok Hs Hch H. destruct (ctx_prepare_inv _ _ _ _ _ _ _ _ Hok Hs Hch H) as (a & p & u & rest & _ & _ & _ & Hr & H1 & H2 & H3).
  split; [eauto|]. intros w2 l w3 [(m & Hm & Hd & Ht) Hw] Hp.
  pose proof Hr as (Hcr & _). destruct (last_rel rest Hcr) as [Hl _]. cbn zeta in Hl.
  rewrite (ctx_path_loc E Hcwd i _ local nt _ w2 m H2 H1 H3 Hl Hm) in Hp. injection Hp as Hl1 _.
  rewrite <- Hl1, Hd. eexists. reflexivity.
Qed.

Theorem depth_only n : pres_fns mnt_ok only i (fun cx => exists comps, sctx i comps cx) (depth E n).
Proof.
  apply depth_pres with (W := fun l => inside l D).
  - exact only_refl.
  - exact only_trans.
  - exact only_ok.
  - intros c (comps & Hc & _). exact Hc.
  - intros w _. apply only_refl || (repeat split; auto; apply H).
  - intros l w _. destruct (m_read E l w) eqn:Er. eapply only_read; eassumption.
  - intros j p w _. destruct (m_prepare E j p _ w) eqn:Er. eapply only_prepare; [|eassumption].
    intros _. right; right; right; left. reflexivity.
  - intros p w _. destruct (m_prepare E i p None w) eqn:Er. eapply only_prepare; [|eassumption]. intros _. exact Hpol.
  - intros p w Hw. destruct (m_remove E i p w) eqn:Er. eapply only_remove; eassumption.
  - intros l c Hl w _. destruct (m_write E l c w) eqn:Er. eapply only_write; [|eassumption]. apply A_in. exact Hl.
  - intros cx t w local nt w' (comps & Hs) Hw Hp. eapply (ctx_prepare_local comps cx t None); [eassumption|eassumption|exact Hpol|eassumption].
Qed.

Hypothesis A_up : A (location (s_cwd E) (fst (path_split D0)) ++ [$".gitignore"]).
Lemma only_close cx w r w' : c_mnt cx = i -> mnt_ok w -> close_context E cx w = (r, w') -> only w w'.
Proof.
  intros Hc Hok H. unfold close_context in H. apply op_cases in H as [(_ & -> & _)|H]; [apply only_refl|].
  rewrite Hc in H. cbn [logged w_mounts w_fs] in H. pose proof Hok as [(m & Hm & Hd & Ht) Hw]. rewrite Hm in H.
  destruct (mount_close (s_cwd E) (w_fs w) m) as [fs|e] eqn:Em; inversion H; subst; (split; [|split; [reflexivity|]]);
    cbn [set_fs w_fs w_mounts logged].
  - intros q Hq. destruct (close_files _ _ _ _ Hcwd Hw Em) as (d & Hdd & Hf). apply Hf. intros ->. apply Hq.
    destruct Hdd as [->| ->]; rewrite Hd; [|exact A_up]. apply A_in. eexists. reflexivity.
  - intros _. split; [exact (proj1 Hok)|]. eapply mount_close_wf; eassumption.
  - intros q _. apply prune_directories_file_at; assumption.
  - intros _. split; [exact (proj1 Hok)|]. apply prune_directories_wf; assumption.
Qed.

Notation on := (pres mnt_ok only).
Lemma on_ret {B} (b : B) : on (ret b). Proof. apply pres_ret. exact only_refl. Qed.
Lemma on_raise {B} e : on (@raise B e). Proof. apply pres_raise. exact only_refl. Qed.
Lemma on_lift {B} (r : res B) : on (lift r). Proof. apply pres_lift. exact only_refl. Qed.
Lemma on_bind {B C} (m : M B) (f : B -> M C) : on m -> (forall a, on (f a)) -> on (mbind m f).
Proof. apply pres_bind; [exact only_trans|exact only_ok]. Qed.
Lemma on_bind_in {B C} (m : M B) (f : B -> M C) :
  on m -> (forall a w w', mnt_ok w -> m w = (Ok a, w') -> on (f a)) -> on (mbind m f).
Proof. apply pres_bind_in; [exact only_trans|exact only_ok]. Qed.
Lemma on_dir cx : on (ctx_dir cx).
Proof. apply pres_ctx_dir; first [exact only_refl|exact only_trans|exact only_ok]. Qed.
Lemma on_prep cx t : c_mnt cx = i -> on (ctx_prepare E cx t None).
Proof.
  intros Hi. unfold ctx_prepare. rewrite Hi. apply on_bind; [apply on_lift|intros a]. apply on_bind; [apply on_lift|intros q].
  apply on_bind; [|intros u].
  { intros w Hw. destruct (m_prepare E i q None w) eqn:Ep. eapply only_prepare; [|eassumption]. intros _. exact Hpol. }
  apply on_bind; [apply on_lift|intros s].
  destruct (t_subdir u); [|apply on_raise]. apply on_bind; [apply on_lift|intros nt; apply on_ret].
Qed.
Lemma on_uuid : on (m_uuid E).
Proof. intros w _. repeat split; auto; apply H. Qed.
Lemma on_ser n cx comps o : sctx i comps cx -> on (serialize E n (Some cx) o).
Proof. intros H. apply (depth_only n). intros c Hc. inversion Hc; subst. eauto. Qed.
Lemma on_de n cx q : on (deserialize E n cx q).
Proof. apply (depth_only n). Qed.
Lemma on_rm n cx o : c_mnt cx = i -> on (remove E n cx o).
Proof. apply (depth_only n). Qed.
Lemma on_close cx : c_mnt cx = i -> on (close_context E cx).
Proof. intros H w Hw. destruct (close_context E cx w) eqn:Ec. eapply only_close; eassumption. Qed.
Lemma on_read l : on (m_read E l).
Proof. intros w _. destruct (m_read E l w) eqn:Er. eapply only_read; eassumption. Qed.
Lemma on_exists l : on (m_exists E l).
Proof.
  intros w _. destruct (m_exists E l w) as [r w'] eqn:H. unfold m_exists in H. apply op_cases in H as [(_ & -> & _)|H]; [apply only_refl|].
  inversion H; subst. apply only_logged.
Qed.
Lemma on_write l c : inside l D -> on (m_write E l c).
Proof. intros H w _. destruct (m_write E l c w) eqn:Er. eapply only_write; [|eassumption]. apply A_in. exact H. Qed.
Lemma sctx_top : sctx i [] (mkCtx i []).
Proof. repeat split. constructor. Qed.
Lemma ctx_dir_inv w w' dir : mnt_ok w -> ctx_dir (mkCtx i []) w = (Ok dir, w') ->
  location (s_cwd E) dir = D /\ absolute dir.
Proof.
  intros [(m & Hm & Hd & _) _] H. unfold ctx_dir, mbind, m_dir_of in H. cbn [c_mnt c_sub] in H. rewrite Hm in H. unfold ret in H.
  injection H as H _. rewrite <- H, Hd. split.
  - rewrite location_join2_any. cbn [isabs]. reflexivity.
  - apply absolute_isabs. apply isabs_join2. apply absolute_isabs. assumption.
Qed.
(** Saving once the context is open. *)
Theorem save_rest_only n k o1 : on (
  x <- ctx_prepare E (mkCtx i []) (json_name k) None;;
  dir <- ctx_dir (mkCtx i []);;
  nm <- lift (fspath (snd x));;
  let l := os_loc (s_cwd E) (join2 dir nm) in
  y <- serialize E n (Some (mkCtx i [])) o1;;
  _ <- m_write E l (Text []);;
  _ <- m_write E l (Json (to_json (s_float E) (snd y)));;
  _ <- close_context E (mkCtx i []);;
  ret y).
Proof.
  apply on_bind_in; [apply on_prep; reflexivity|]. intros [local nt] w w1 Hw Hp. cbn [snd].
  destruct (ctx_prepare_inv [] _ _ None _ _ _ _ Hw sctx_top Hpol Hp) as (a & p & u & rest & _ & _ & _ & Hr & H1 & _ & H3).
  apply on_bind_in; [apply on_dir|]. intros dir w2 w3 Hw2 Hd. destruct (ctx_dir_inv _ _ _ Hw2 Hd) as [Hd1 Hd2].
  apply on_bind_in; [apply on_lift|]. intros nm w4 w5 Hw4 Hn. cbn zeta.
  assert (Hin : inside (os_loc (s_cwd E) (join2 dir nm)) D).
  { unfold lift in Hn. injection Hn as Hn _. unfold fspath in Hn. rewrite H1 in Hn. unfold t_name in H3.
    destruct (t_stem nt) as [st|]; [|discriminate]. destruct (t_suffix nt) as [su|]; [|discriminate].
    injection H3 as H3. injection Hn as Hn. rewrite <- Hn, H3, join2_nil_l. rewrite os_loc_location by assumption.
    pose proof Hr as (Hcr & _). destruct (last_rel rest Hcr) as [Hl _]. cbn zeta in Hl. rewrite location_last by assumption.
    rewrite Hd1. eexists. reflexivity. }
  apply on_bind; [eapply on_ser; apply sctx_top|intros y]. apply on_bind; [apply on_write; exact Hin|intros _].
  apply on_bind; [apply on_write; exact Hin|intros _]. apply on_bind; [apply on_close; reflexivity|intros _]. apply on_ret.
Qed.
Theorem load_rest_only n k dv df : on (
  dir <- ctx_dir (mkCtx i []);;
  let l := os_loc (s_cwd E) (join2 dir (k ++ $".json")) in
  e <- m_exists E l;;
  o <- (if e then
          x <- m_read E l;;
          match x with
          | Json j => deserialize E n (Some (mkCtx i [])) (of_json j)
          | Text _ => raise ValueError
          end
        else match dv, df with
             | None, None => raise FileNotFoundError
             | None, Some v => ret v
             | Some v, _ => ret v
             end);;
  _ <- close_context E (mkCtx i []);;
  ret o).
Proof.
  apply on_bind; [apply on_dir|intros dir]. cbn zeta. apply on_bind; [apply on_exists|intros e]. apply on_bind; [|intros o].
  - destruct e.
    + apply on_bind; [apply on_read|intros x]. destruct x; [apply on_raise|apply on_de].
    + destruct dv, df; first [apply on_ret|apply on_raise].
  - apply on_bind; [apply on_close; reflexivity|intros _]. apply on_ret.
Qed.
End Local.

(** The mount a call opens: its directory is [key_dir p k]. *)
Section Open.
Variable E : senv.
Hypothesis Hcwd : absolute (s_cwd E).
Hypothesis Hpol : In (s_retouch E) unattended.
Variable p : opts.
Variable k : str.
Hypothesis Hbase : absolute (o_base p).
Lemma key_dir_absolute : absolute (key_dir p k).
Proof.
  apply absolute_isabs. unfold key_dir, mount_dir, joinN. cbn [fold_left]. repeat apply isabs_join2. apply absolute_isabs. exact Hbase.
Qed.
Definition opened (w : world) : world :=
  mkWorld (w_fs w) (w_mounts w ++ [new_mount (key_dir p k) (o_cluster p) (o_gitignore p)]) (w_inputs w) (w_uuid w) (w_log w).
Lemma opened_ok w : well_formed (w_fs w) -> mnt_ok (List.length (w_mounts w)) (key_dir p k) (opened w).
Proof.
  intros Hw. split; [|exact Hw]. exists (new_mount (key_dir p k) (o_cluster p) (o_gitignore p)).
  split; [cbn [opened w_mounts]; rewrite nth_error_app2, Nat.sub_diag by lia; reflexivity|]. split; [reflexivity|].
  split; constructor.
Qed.
Definition mine (q : loc) : Prop :=
  inside q (location (s_cwd E) (key_dir p k)) \/
  q = location (s_cwd E) (fst (path_split (key_dir p k))) ++ [$".gitignore"].
Theorem save_only n o w r w' : well_formed (w_fs w) -> save E n p k o w = (r, w') ->
  forall q, ~ mine q -> file_at (w_fs w') q = file_at (w_fs w) q.
Proof.
  intros Hw H q Hq. unfold save in H.
  assert (Ho : exists r0, (if is_serializable E o then ret o else if is_storable E o then ret (fresh_record o) else raise ValueError) w = (r0, w)).
  { destruct (is_serializable E o); [eexists; reflexivity|]. destruct (is_storable E o); eexists; reflexivity. }
  destruct Ho as [r0 Ho]. unfold mbind at 1 in H. rewrite Ho in H. destruct r0 as [o1|e]; [|inversion H; subst; reflexivity].
  unfold mbind at 1 in H. unfold open_context at 1 in H. cbn [c_mnt] in H.
  pose proof (save_rest_only E (List.length (w_mounts w)) (key_dir p k) Hcwd key_dir_absolute Hpol mine
                (fun x Hx => or_introl Hx) (or_intror eq_refl) n k o1 (opened w) (opened_ok w Hw)) as (Hf & _).
  unfold opened in Hf at 1. rewrite H in Hf. cbn [snd] in Hf. rewrite Hf by assumption. reflexivity.
Qed.
Theorem load_only n dv df w r w' : well_formed (w_fs w) -> load E n p k dv df w = (r, w') ->
  forall q, ~ mine q -> file_at (w_fs w') q = file_at (w_fs w) q.
Proof.
  intros Hw H q Hq. unfold load in H. unfold mbind at 1 in H. unfold open_context at 1 in H. cbn [c_mnt] in H.
  pose proof (load_rest_only E (List.length (w_mounts w)) (key_dir p k) Hcwd key_dir_absolute Hpol mine
                (fun x Hx => or_introl Hx) (or_intror eq_refl) n k dv df (opened w) (opened_ok w Hw)) as (Hf & _).
  unfold opened in Hf at 1. rewrite H in Hf. cbn [snd] in Hf. rewrite Hf by assumption. reflexivity.
Qed.
End Open.
