(** Only the file operations in the log change files. *)
From Coq Require Import List Ascii String Bool Arith ZArith Lia.
From Verif Require Import Base PosixModel FsModel PathModel SerialModel StoreModel StoreFrame StoreMount StoreSpec PathSpec MountSpec DirSpec
     PosixProof FsProof DirProof TargetProof MountProof HistoryProof PathFacts.
Import ListNotations.

Section Events.
Variable E : senv.
Hypothesis Hcwd : absolute (s_cwd E).
Definition wf_w (w : world) : Prop := well_formed (w_fs w).
Definition traced (w w' : world) : Prop :=
  exists new, w_log w' = new ++ w_log w /\ (forall j d, mount_at w j d -> mount_at w' j d) /\ (wf_w w -> wf_w w') /\
    same_files (fun q => ~ hit E w' new q) w w'.

Lemma mount_at_static w j d : mount_at w j d <-> exists s, nth_error (statics w) j = Some s /\ fst (fst s) = d.
Proof.
  unfold mount_at, statics. split.
  - intros (m & H & <-). exists (static m). split; [apply map_nth_error; assumption|reflexivity].
  - intros (s & H & <-). rewrite nth_error_map in H. destruct (nth_error (w_mounts w) j) as [m|]; [|discriminate].
    inversion H; subst. exists m. auto.
Qed.
Lemma hit_weaken w w' a b q : (forall e, In e a -> In e b) -> (forall j d, mount_at w j d -> mount_at w' j d) ->
  hit E w a q -> hit E w' b q.
Proof. intros He Hs H. destruct H; [eapply hit_write|eapply hit_remove|eapply hit_close|eapply hit_close_up]; eauto. Qed.
Lemma mount_at_eq w w' : statics w = statics w' -> forall j d, mount_at w j d -> mount_at w' j d.
Proof. intros H j d. rewrite !mount_at_static, H. auto. Qed.
Lemma traced_refl w : traced w w.
Proof. exists []. repeat split; auto. Qed.
Lemma traced_trans a b c : traced a b -> traced b c -> traced a c.
Proof.
  intros (n1 & H1 & H2 & H3 & H4) (n2 & G1 & G2 & G3 & G4). exists (n2 ++ n1). split; [rewrite G1, H1, app_assoc; reflexivity|].
  split; [auto|]. split; [auto|]. intros q Hq. rewrite G4, H4; [reflexivity| |].
  - intros Hh. apply Hq. eapply hit_weaken; [| |exact Hh]; [intros e He; apply in_or_app; auto|exact G2].
  - intros Hh. apply Hq. eapply hit_weaken; [| |exact Hh]; [intros e He; apply in_or_app; auto|auto].
Qed.
Lemma traced_wf a b : wf_w a -> traced a b -> wf_w b.
Proof. intros H (n & _ & _ & G & _). auto. Qed.
Lemma traced_logged ev w : traced w (logged ev w).
Proof. exists [ev]. repeat split; auto. Qed.

Lemma traced_prepare j p ch w : traced w (snd (m_prepare E j p ch w)).
Proof.
  destruct (m_prepare E j p ch w) as [r w'] eqn:H. apply m_prepare_inv in H. destruct H as [Hl|Hn|m r fs m' inp Hm Hp]; cbn [snd].
  - apply traced_refl.
  - apply traced_logged.
  - exists [EvPrepare j p]. split; [reflexivity|].
    split; [apply mount_at_eq; symmetry; eapply statics_set; [eassumption|eapply prepare_static; eassumption]|].
    split; [unfold wf_w; cbn [w_fs]; eapply prepare_wf; eassumption|].
    intros q _. cbn [w_fs]. eapply prepare_files; eassumption.
Qed.
Lemma traced_remove j p w : traced w (snd (m_remove E j p w)).
Proof.
  destruct (m_remove E j p w) as [r w'] eqn:H. apply m_remove_inv in H. destruct H as [Hl|Hn|m r fs m' Hm Hp]; cbn [snd].
  - apply traced_refl.
  - apply traced_logged.
  - exists [EvRemove j p]. split; [reflexivity|].
    pose proof (mount_remove_static _ _ _ _ _ _ _ _ Hp) as Hs.
    assert (Hst : map static (set_nth j m' (w_mounts w)) = statics w) by (eapply statics_set; eassumption).
    split; [apply mount_at_eq; symmetry; exact Hst|]. split; [unfold wf_w; cbn [w_fs]; eapply mount_remove_wf; eassumption|].
    intros q Hq. cbn [w_fs].
    destruct (mount_remove_cases _ _ _ _ _ _ _ _ Hcwd Hp) as [(e & _ & _ & -> & _)|[(_ & _ & ->)|(Hu & _ & Hf)]];
      [reflexivity|reflexivity|].
    apply Hf. intros ->. apply Hq. eapply hit_remove; [left; reflexivity|]. apply mount_at_static.
    unfold statics. cbn [w_mounts]. rewrite Hst. exists (static m). split; [apply statics_nth; assumption|reflexivity].
Qed.
Lemma traced_write l c w : traced w (snd (m_write E l c w)).
Proof.
  destruct (m_write E l c w) as [r w'] eqn:H. apply m_write_inv in H. destruct H as [_|e _|fs Hw]; [apply traced_refl|apply traced_logged|].
  cbn [snd]. exists [EvWrite l]. split; [reflexivity|]. split; [intros j d Hj; exact Hj|].
  split; [unfold wf_w; cbn [set_fs logged w_fs]; eapply write_file_wf; eassumption|].
  intros q Hq. cbn [set_fs logged w_fs]. rewrite (write_file_lookup _ _ _ _ Hw). destruct (loc_eq_dec q l) as [->|]; [|reflexivity].
  exfalso. apply Hq. apply hit_write. left. reflexivity.
Qed.
Lemma traced_read l w : traced w (snd (m_read E l w)).
Proof. destruct (m_read E l w) as [r w'] eqn:H. apply m_read_inv in H as [[_ ->]|[-> _]]; [apply traced_refl|apply traced_logged]. Qed.
Lemma traced_exists l w : traced w (snd (m_exists E l w)).
Proof.
  destruct (m_exists E l w) as [r w'] eqn:H. unfold m_exists in H. apply op_cases in H as [(_ & -> & _)|H]; [apply traced_refl|].
  inversion H; subst. apply traced_logged.
Qed.
Lemma traced_close cx w : wf_w w -> traced w (snd (close_context E cx w)).
Proof.
  intros Hw. destruct (close_context E cx w) as [r w'] eqn:H. unfold close_context in H.
  apply op_cases in H as [(_ & -> & _)|H]; [apply traced_refl|]. cbn [logged w_mounts w_fs] in H.
  destruct (nth_error (w_mounts w) (c_mnt cx)) as [m|] eqn:Em; [|inversion H; subst; apply traced_logged].
  destruct (mount_close (s_cwd E) (w_fs w) m) as [fs|e] eqn:Ec; inversion H; subst; cbn [snd]; exists [EvClose (c_mnt cx)];
    (split; [reflexivity|]); (split; [intros j d Hj; exact Hj|]).
  - split; [intros _; unfold wf_w; cbn [set_fs w_fs]; eapply mount_close_wf; eassumption|].
    intros q Hq. cbn [set_fs w_fs]. destruct (close_files _ _ _ _ Hcwd Hw Ec) as (d & Hd & Hf). apply Hf. intros ->. apply Hq.
    assert (Hm : mount_at (set_fs (mkWorld (w_fs w) (w_mounts w) (w_inputs w) (w_uuid w) (EvClose (c_mnt cx) :: w_log w)) fs) (c_mnt cx) (m_dir m))
      by (exists m; auto).
    destruct Hd as [->| ->]; [eapply hit_close|eapply hit_close_up]; try (left; reflexivity); exact Hm.
  - split; [intros _; unfold wf_w; cbn [set_fs w_fs]; apply prune_directories_wf; assumption|].
    intros q _. cbn [set_fs w_fs]. apply prune_directories_file_at. assumption.
Qed.

Theorem depth_traced n i : pres_fns wf_w traced i (fun cx => c_mnt cx = i) (depth E n).
Proof.
  apply depth_pres with (W := fun _ => True).
  - exact traced_refl.
  - exact traced_trans.
  - exact traced_wf.
  - auto.
  - intros w _. exists []. repeat split; auto.
  - intros l w _. apply traced_read.
  - intros j p w _. apply traced_prepare.
  - intros p w _. apply traced_prepare.
  - intros p w _. apply traced_remove.
  - intros l c _ w _. apply traced_write.
  - intros cx t w local nt w' Hc _ Hp. split; [|auto]. unfold ctx_prepare, mbind, lift, raise in Hp.
    destruct (ctx_absolute cx t); [|discriminate]. destruct (fspath _); [|discriminate].
    destruct (m_prepare _ _ _ _ _) as [[u|] w1]; [|discriminate]. destruct (t_name u); [|discriminate].
    destruct (t_subdir u) as [s|]; [|discriminate]. destruct (Target _ _ _ _); inversion Hp; subst. destruct s; reflexivity.
Qed.

Lemma traced_open p k w : traced w (snd (open_context p k w)).
Proof.
  exists []. cbn [snd open_context]. repeat split; auto. intros j d (m & Hm & Hd). exists m. split; [|exact Hd]. cbn [w_mounts].
  rewrite nth_error_app1; [exact Hm|]. apply nth_error_Some. congruence.
Qed.
Notation tr := (pres wf_w traced).
Let tr_ret {B} (b : B) : tr (ret b) := pres_ret wf_w traced traced_refl b.
Let tr_raise {B} e : tr (@raise B e) := pres_raise wf_w traced traced_refl e.
Let tr_lift {B} (r : res B) : tr (lift r) := pres_lift wf_w traced traced_refl r.
Lemma tr_bind {B C} (m : M B) (f : B -> M C) : tr m -> (forall a, tr (f a)) -> tr (mbind m f).
Proof. apply pres_bind; [exact traced_trans|exact traced_wf]. Qed.
Lemma tr_attempt {B} (m : M B) : tr m -> tr (attempt m).
Proof. apply pres_attempt. Qed.
Lemma tr_uuid : tr (m_uuid E).
Proof. intros w _. exists []. repeat split; auto. Qed.
Lemma tr_open p k : tr (open_context p k).
Proof. intros w _. apply traced_open. Qed.
Lemma tr_dir cx : tr (ctx_dir cx).
Proof.
  apply pres_ctx_dir; first [exact traced_refl|exact traced_trans|exact traced_wf].
Qed.
Lemma tr_prep cx t ch : tr (ctx_prepare E cx t ch).
Proof.
  unfold ctx_prepare. apply tr_bind; [apply tr_lift|intros a]. apply tr_bind; [apply tr_lift|intros q].
  apply tr_bind; [intros w _; apply traced_prepare|intros u]. apply tr_bind; [apply tr_lift|intros s].
  destruct (t_subdir u); [|apply tr_raise]. apply tr_bind; [apply tr_lift|intros nt; apply tr_ret].
Qed.
Lemma tr_write l c : tr (m_write E l c).
Proof. intros w _. apply traced_write. Qed.
Lemma tr_read l : tr (m_read E l).
Proof. intros w _. apply traced_read. Qed.
Lemma tr_exists l : tr (m_exists E l).
Proof. intros w _. apply traced_exists. Qed.
Lemma tr_close cx : tr (close_context E cx).
Proof. intros w Hw. apply traced_close. assumption. Qed.
Lemma tr_ser n cx o : tr (serialize E n (Some cx) o).
Proof. apply (depth_traced n (c_mnt cx)). intros c Hc. inversion Hc; subst. reflexivity. Qed.
Lemma tr_de n cx q : tr (deserialize E n cx q).
Proof. apply (depth_traced n 0). Qed.
Lemma tr_rm n cx o : tr (remove E n cx o).
Proof. apply (depth_traced n (c_mnt cx)). reflexivity. Qed.
Lemma tr_content n o : tr (content_of E n o).
Proof.
  destruct o; try apply tr_ret. cbn [content_of]. apply tr_bind; [|intros [[v c'] re']; apply tr_ret].
  apply (pres_rec_load E wf_w traced traced_refl traced_trans traced_wf 0 (fun cx => c_mnt cx = 0)).
  - intros l w _. apply traced_read.
  - intros j p w _. apply traced_prepare.
  - apply depth_traced.
Qed.
Create HintDb tr discriminated.
Hint Resolve tr_ret tr_raise tr_lift tr_uuid tr_open tr_dir tr_prep tr_write tr_read tr_exists tr_close tr_ser tr_de tr_rm : tr.
Ltac go := repeat first
  [ solve [auto with tr]
  | apply tr_bind; [|intros ?] | apply tr_attempt
  | match goal with |- tr (match ?x with _ => _ end) => destruct x end ].
Theorem save_traced n p k o : tr (save E n p k o).
Proof. unfold save. go. Qed.
Theorem load_traced n p k d df : tr (load E n p k d df).
Proof. unfold load. go. Qed.
Theorem store_traced n p k o : tr (store E n p k o).
Proof. unfold store, rec_target. go. Qed.
End Events.
