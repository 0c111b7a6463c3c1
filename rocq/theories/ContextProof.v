(** Contexts stay what they are while a program saves and loads: the mounts they belong to only see further unattended calls. *)
From Coq Require Import List Ascii String Bool Arith ZArith Lia.
From Verif Require Import Base PosixModel FsModel PathModel SerialModel StoreModel StoreFrame StoreMount StoreSpec StoreLocal KeepSpec
     PathSpec MountSpec DirSpec PosixProof FsProof DirProof TargetProof MountProof HistoryProof PathFacts.
Import ListNotations.

Local Arguments str_eq_dec : simpl never.

(** ** One mount *)
Lemma register_f_inputs conf touched x f : forall ch k inp t, In (eff_choice conf ch) unattended ->
  register_f f conf ch [] touched t = Ok x -> register_f (f + k) conf ch inp touched t = Ok (fst x, inp).
Proof.
  induction f as [|f IH]; intros ch k inp t Hu H; cbn [register_f Nat.add] in *.
  - destruct k; cbn [register_f]; destruct (in_touched t touched); try discriminate; injection H as <-; reflexivity.
  - destruct (in_touched t touched); [|injection H as <-; reflexivity].
    destruct (default touched t) as [d|]; [|discriminate]. cbn [bind] in *. fold (eff_choice conf ch) in *.
    destruct (str_eq_dec (eff_choice conf ch) ($"prompt")) as [Hp|_].
    { exfalso. rewrite Hp in Hu. destruct Hu as [Hu|[Hu|[Hu|[Hu|[]]]]]; discriminate Hu. }
    cbn [bind] in *.
    destruct (str_teq (eff_choice conf ch) d || (if str_eq_dec (eff_choice conf ch) ($"auto") then true else false)) eqn:Ea.
    + destruct (t_name d) as [n|]; [|discriminate]. cbn [bind] in *. destruct (update t None None None (Some n)) as [t'|]; [|discriminate]. cbn [bind] in *.
      apply IH; [left; reflexivity|assumption].
    + destruct (member (eff_choice conf ch) [$"q"; $"quit"]) eqn:Eq; [discriminate|].
      destruct (member (eff_choice conf ch) [$"x"; $"ignore"; $"_ignore"]) eqn:Ei; [injection H as <-; reflexivity|]. exfalso.
      apply orb_false_iff in Ea as [_ Ea]. unfold member in Eq, Ei. destruct (in_dec _ _ _) as [|N1] in Eq; [discriminate|]. destruct (in_dec _ _ _) as [|N2] in Ei; [discriminate|].
      destruct (str_eq_dec (eff_choice conf ch) ($"auto")) as [|N0]; [discriminate|].
      destruct Hu as [Hu|[Hu|[Hu|[Hu|[]]]]]; [congruence|apply N1; right; left; assumption|apply N2; right; left; assumption|apply N2; right; right; left; assumption].
Qed.
Lemma mount_run_snoc cwd conf o ops : forall s, fst (mount_run cwd conf s (ops ++ [o])) = fst (mount_step cwd conf (fst (mount_run cwd conf s ops)) o).
Proof.
  induction ops as [|a ops IH]; intros s; cbn [app mount_run].
  - cbn [fst]. destruct (mount_step cwd conf s o) as [s1 t]. reflexivity.
  - destruct (mount_step cwd conf s a) as [s1 t]. specialize (IH s1).
    destruct (mount_run cwd conf s1 (ops ++ [o])) as [s2 ts], (mount_run cwd conf s1 ops) as [s3 ts']. exact IH.
Qed.
Lemma reachable_step cwd conf dir m o : reachable cwd conf dir m -> op_policy unattended conf o ->
  exists fs, reachable cwd conf dir (snd (fst (mount_step cwd conf (fs, m) o))).
Proof.
  intros (fs0 & c & g & ops & fs & H1 & H2) Ho. exists fs. exists fs0, c, g, (ops ++ [o]), (fst (fst (mount_step cwd conf (fs, m) o))).
  split; [apply Forall_app; split; [assumption|constructor; [assumption|constructor]]|]. rewrite mount_run_snoc, H2. destruct (fst (mount_step _ _ _ _)). reflexivity.
Qed.
Lemma reachable_prepare cwd conf dir m path ch fs inp r fs' m' inp' : absolute cwd -> absolute dir -> reachable cwd conf dir m -> In (eff_choice conf ch) unattended ->
  prepare cwd conf fs m path true ch inp = (r, (fs', m', inp')) -> reachable cwd conf dir m'.
Proof.
  intros Hc Hd Hr Hu H. destruct (reachable_ok cwd conf dir m Hc Hd Hr) as [Hmd Hk].
  destruct (reachable_step cwd conf dir m (OpPrepare path ch) Hr Hu) as [fs1 Hs].
  assert (Hm' : snd (fst (mount_step cwd conf (fs1, m) (OpPrepare path ch))) = m' \/ m' = m); [|destruct Hm' as [<- | ->]; assumption].
  cbn [mount_step]. pose proof (prepare_spec cwd conf fs m path ch inp Hc) as Hp. rewrite Hmd in Hp. specialize (Hp Hd Hk Hu).
  unfold prepare in *. destruct (normalize cwd (m_dir m) path true) as [t|e] eqn:En; [|right; congruence].
  destruct (register conf ch inp (m_touched m) t) as [[[t' tt] inp1]|e] eqn:Er; [|right; congruence].
  assert (Hm' : m' = set_touched m tt).
  { destruct (t_subdir t'); [|injection H as _ _ <- _; reflexivity]. destruct (is_dir _ _); [injection H as _ _ <- _; reflexivity|]. destruct (makedirs _ _); injection H as _ _ <- _; reflexivity. }
  left. subst m'.
  assert (Hreg : register conf ch [] (m_touched m) t = Ok (t', tt, [])).
  { assert (Hrt : exists rest, rel_target t rest).
    { destruct Hp as (r1 & f1 & m1 & _ & Hp). destruct Hp as [E1|u rest E1 Hrt _ _ _|u rest u' rest' tt' r0 f0 E1 Hrt _]; rewrite En in E1; [discriminate|injection E1 as <-; eauto|injection E1 as <-; eauto]. }
    destruct Hrt as [rest Hrt].
    destruct (register_unattended conf ch [] (m_touched m) t rest Hrt Hk Hu) as [(A1 & A2 & A3)|(t2 & tt2 & rest2 & A1 & _)].
    - exfalso. destruct (register_unattended conf ch inp (m_touched m) t rest Hrt Hk Hu) as [(_ & _ & A4)|(t2 & tt2 & rest2 & A4 & _)]; [congruence|].
      pose proof Hrt as (_ & Hn & _). rewrite (register_quit_touched conf ch inp (m_touched m) t) in Er; [discriminate|assumption|assumption|]. change (match ch with None => conf | Some c => c end) with (eff_choice conf ch). rewrite A2. right. left. reflexivity.
    - rewrite A1. unfold register in A1, Er. pose proof (register_f_inputs conf (m_touched m) _ _ ch (List.length inp) inp t Hu A1) as A2. cbn [fst Nat.add List.length] in A2. rewrite A2 in Er. congruence. }
  clear H Hp. rewrite Hreg. destruct (t_subdir t'); [|reflexivity]. destruct (is_dir _ _); [reflexivity|]. destruct (makedirs _ _); reflexivity.
Qed.
Lemma reachable_remove cwd conf dir m path fs r fs' m' : reachable cwd conf dir m -> mount_remove cwd fs m path true = (r, (fs', m')) -> reachable cwd conf dir m'.
Proof.
  intros Hr H. destruct (reachable_step cwd conf dir m (OpRemove path) Hr I) as [fs1 Hs]. cbn [mount_step] in Hs. unfold mount_remove in *.
  destruct (untrack cwd m path true) as [m1|e]; [|injection H as _ _ <-; assumption].
  assert (m' = m1) by (destruct (lookup fs _) as [[|[|]]|]; injection H as _ _ <-; reflexivity). subst m'.
  destruct (lookup fs1 _) as [[|[|]]|]; exact Hs.
Qed.

(** ** All mounts of a program *)
Section Contexts.
Variable E : senv.
Hypothesis Hcwd : absolute (s_cwd E).
Hypothesis Hun : In (s_retouch E) unattended.
Definition stays (w w' : world) : Prop := forall dir j m, absolute dir -> nth_error (w_mounts w) j = Some m -> reachable (s_cwd E) (s_retouch E) dir m ->
  exists m', nth_error (w_mounts w') j = Some m' /\ reachable (s_cwd E) (s_retouch E) dir m'.
Lemma stays_refl w : stays w w.
Proof. intros dir j m _ H1 H2. eauto. Qed.
Lemma stays_trans a b c : stays a b -> stays b c -> stays a c.
Proof. intros H1 H2 dir j m Hd Hm Hr. destruct (H1 dir j m Hd Hm Hr) as (m1 & Hm1 & Hr1). eauto. Qed.
Lemma stays_same w w' : w_mounts w' = w_mounts w -> stays w w'.
Proof. intros H dir j m _ H1 H2. rewrite H. eauto. Qed.
Lemma stays_prepare j p ch w : In (eff_choice (s_retouch E) ch) unattended -> stays w (snd (m_prepare E j p ch w)).
Proof.
  intros Hu. destruct (m_prepare E j p ch w) as [r w'] eqn:H. cbn [snd]. apply m_prepare_inv in H. destruct H as [Hl|Hn|m r fs m' inp Hm Hp]; [apply stays_refl|apply stays_same; reflexivity|].
  intros dir j0 m0 Hd H1 H2. cbn [w_mounts]. rewrite nth_set_nth. destruct (Nat.eq_dec j0 j) as [->|]; [|eauto].
  rewrite Hm. rewrite Hm in H1. injection H1 as ->. exists m'. split; [reflexivity|]. eapply reachable_prepare; eassumption.
Qed.
Lemma stays_remove j p w : stays w (snd (m_remove E j p w)).
Proof.
  destruct (m_remove E j p w) as [r w'] eqn:H. cbn [snd]. unfold m_remove, op in H.
  assert (Hx : w_mounts w' = w_mounts w \/ exists m m' fs r0, nth_error (w_mounts w) j = Some m /\ mount_remove (s_cwd E) (w_fs w) m p true = (r0, (fs, m')) /\ w_mounts w' = set_nth j m' (w_mounts w)).
  { destruct (s_limit E) as [k|]; [destruct (k <=? _)|]; cbn [w_mounts w_fs] in H;
      [injection H as _ <-; auto| |]; (destruct (nth_error (w_mounts w) j) as [m|] eqn:Em; [|injection H as _ <-; auto]);
      (destruct (mount_remove (s_cwd E) (w_fs w) m p true) as [r0 [fs m']] eqn:Er; injection H as _ <-; right; exists m, m', fs, r0; auto). }
  destruct Hx as [Hx|(m & m' & fs & r0 & Hm & Hr & Hx)]; [apply stays_same; assumption|].
  intros dir j0 m0 Hd H1 H2. rewrite Hx, nth_set_nth. destruct (Nat.eq_dec j0 j) as [->|]; [|eauto].
  rewrite Hm. rewrite Hm in H1. injection H1 as ->. exists m'. split; [reflexivity|]. eapply reachable_remove; eassumption.
Qed.
Lemma op_mounts {A} ev (f : world -> res A * world) w : (forall w0, w_mounts (snd (f w0)) = w_mounts w0) -> w_mounts (snd (op E ev f w)) = w_mounts w.
Proof. intros H. unfold op. destruct (s_limit E) as [k|]; [destruct (k <=? _)|]; rewrite ?H; reflexivity. Qed.
Lemma stays_write l c w : stays w (snd (m_write E l c w)).
Proof. apply stays_same. unfold m_write. apply op_mounts. intros w0. destruct (write_file _ _ _); reflexivity. Qed.
Lemma stays_read l w : stays w (snd (m_read E l w)).
Proof. apply stays_same. unfold m_read. apply op_mounts. intros w0. destruct (lookup _ _) as [[]|]; reflexivity. Qed.
Lemma stays_exists l w : stays w (snd (m_exists E l w)).
Proof. apply stays_same. unfold m_exists. apply op_mounts. reflexivity. Qed.
Lemma stays_close cx w : stays w (snd (close_context E cx w)).
Proof. apply stays_same. unfold close_context. apply op_mounts. intros w0. destruct (nth_error _ _); [|reflexivity]. destruct (mount_close _ _ _); reflexivity. Qed.
Lemma stays_open p k w : stays w (snd (open_context p k w)).
Proof. intros dir j m _ H1 H2. exists m. split; [|assumption]. cbn [snd open_context w_mounts]. rewrite nth_error_app1; [assumption|]. apply nth_error_Some. congruence. Qed.
Notation any := (fun _ : world => True).
Theorem depth_stays n i : pres_fns any stays i (fun cx => c_mnt cx = i) (depth E n).
Proof.
  apply depth_pres with (W := fun _ => True).
  - exact stays_refl.
  - exact stays_trans.
  - auto.
  - auto.
  - intros w _. apply stays_same. reflexivity.
  - intros l w _. apply stays_read.
  - intros j p w _. apply stays_prepare. right. right. right. left. reflexivity.
  - intros p w _. apply stays_prepare. exact Hun.
  - intros p w _. apply stays_remove.
  - intros l c _ w _. apply stays_write.
  - intros cx t w local nt w' Hc _ Hp. split; [|auto]. unfold ctx_prepare, mbind, lift, raise in Hp.
    destruct (ctx_absolute cx t); [|discriminate]. destruct (fspath _); [|discriminate].
    destruct (m_prepare _ _ _ _ _) as [[u|] w1]; [|discriminate]. destruct (t_name u); [|discriminate].
    destruct (t_subdir u) as [s|]; [|discriminate]. destruct (Target _ _ _ _); inversion Hp; subst. destruct s; reflexivity.
Qed.
Notation st := (pres any stays).
Let st_ret {B} (b : B) : st (ret b) := pres_ret any stays stays_refl b.
Let st_raise {B} e : st (@raise B e) := pres_raise any stays stays_refl e.
Let st_lift {B} (r : res B) : st (lift r) := pres_lift any stays stays_refl r.
Lemma st_bind {B C} (m : M B) (f : B -> M C) : st m -> (forall a, st (f a)) -> st (mbind m f).
Proof. apply pres_bind; [exact stays_trans|auto]. Qed.
Lemma st_attempt {B} (m : M B) : st m -> st (attempt m).
Proof. apply pres_attempt. Qed.
Lemma st_open p k : st (open_context p k).
Proof. intros w _. apply stays_open. Qed.
Lemma st_dir cx : st (ctx_dir cx).
Proof. apply pres_ctx_dir; first [exact stays_refl|exact stays_trans|auto]. Qed.
Lemma st_prep cx t : st (ctx_prepare E cx t None).
Proof.
  unfold ctx_prepare. apply st_bind; [apply st_lift|intros a]. apply st_bind; [apply st_lift|intros q].
  apply st_bind; [intros w _; apply stays_prepare; exact Hun|intros u]. apply st_bind; [apply st_lift|intros s].
  destruct (t_subdir u); [|apply st_raise]. apply st_bind; [apply st_lift|intros nt; apply st_ret].
Qed.
Lemma st_write l c : st (m_write E l c).
Proof. intros w _. apply stays_write. Qed.
Lemma st_read l : st (m_read E l).
Proof. intros w _. apply stays_read. Qed.
Lemma st_exists l : st (m_exists E l).
Proof. intros w _. apply stays_exists. Qed.
Lemma st_close cx : st (close_context E cx).
Proof. intros w _. apply stays_close. Qed.
Lemma st_ser n cx o : st (serialize E n (Some cx) o).
Proof. apply (depth_stays n (c_mnt cx)). intros c Hc. inversion Hc; subst. reflexivity. Qed.
Lemma st_de n cx q : st (deserialize E n cx q).
Proof. apply (depth_stays n 0). Qed.
Create HintDb st discriminated.
Hint Resolve st_ret st_raise st_lift st_open st_dir st_prep st_write st_read st_exists st_close st_ser st_de : st.
Ltac go := repeat first
  [ solve [auto with st]
  | apply st_bind; [|intros ?] | apply st_attempt
  | match goal with |- st (match ?x with _ => _ end) => destruct x end ].
Theorem save_stays n p k o w : stays w (snd (save E n p k o w)).
Proof. revert w. enough (H : st (save E n p k o)) by (intros w; apply H; exact I). unfold save. go. Qed.
Theorem load_stays n p k d df w : stays w (snd (load E n p k d df w)).
Proof. revert w. enough (H : st (load E n p k d df)) by (intros w; apply H; exact I). unfold load. go. Qed.
Theorem content_stays n o w : stays w (snd (content_of E n o w)).
Proof.
  destruct o; try apply st_ret; try exact I. cbn [content_of]. apply st_bind; [|intros [[v c'] re']; apply st_ret|exact I].
  apply (pres_rec_load E any stays stays_refl stays_trans (fun _ _ _ _ => I) 0 (fun cx => c_mnt cx = 0)).
  - intros l w0 _. apply stays_read.
  - intros j p w0 _. apply stays_prepare. right. right. right. left. reflexivity.
  - apply depth_stays.
Qed.
Theorem stays_context w w' cx dir comps : absolute dir -> stays w w' -> context_at E w cx dir comps -> context_at E w' cx dir comps.
Proof. intros Hd Hs (m & H1 & H2 & H3). destruct (Hs dir _ m Hd H1 H2) as (m' & H1' & H2'). exists m'. auto. Qed.
Theorem stays_holds UM UC w w' dir : absolute dir -> stays w w' -> forall comps o, holds_two UM UC E w dir comps o -> holds_two UM UC E w' dir comps o.
Proof.
  intros Hd Hs. fix IH 3. intros comps o H. destruct H.
  - apply h_atom.
  - apply h_list. intros x Hx. apply IH. auto.
  - apply h_dict; [|assumption]. intros k x Hx. destruct (H k x Hx) as [H1 H2]. split; [assumption|apply IH; assumption].
  - eapply h_leaf; eassumption.
  - eapply h_model; try eassumption. intros f v Hf Hno Ha. destruct (H2 f v Hf Hno Ha) as [H3 H4]. split; [apply IH; assumption|assumption].
  - apply h_seq; [assumption|]. intros x Hx. apply IH. auto.
  - apply h_map; [assumption| |assumption]. intros k x Hx. apply IH. eauto.
  - apply h_rec; [|assumption]. intros sd Hsd. apply IH. auto.
  - apply h_waiting; [assumption|]. eapply stays_context; eassumption.
Qed.
End Contexts.
