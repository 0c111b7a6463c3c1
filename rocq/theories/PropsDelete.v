(** Deleting items of a model and saving it: C40, C41. *)
From Coq Require Import List Ascii String Bool Arith ZArith Lia.
From Verif Require Import Base PosixModel FsModel PathModel SerialModel StoreModel StoreFrame StoreMount StoreSpec StoreLocal StorePlace
     StoreRecord StoreSave StoreEvents StoreExample SerialSpec SerialProof RoundSpec KeepSpec RoundProof ReplayProof CleanProof DropProof DropSettled KeepProof KeepSave PathSpec MountSpec DirSpec
     PosixProof FsProof DirProof TargetProof MountProof HistoryProof PathFacts PropsStore PropsRepo PropsRound PropsKeep.
Import ListNotations.

Local Arguments str_eq_dec : simpl never.
Local Arguments atom_eq_dec : simpl never.

(** ** C40 *)
(** The pending deletions may be anything: items that were loaded or not, records, contents of records, containers. *)
Lemma any_deletion E i D0 comps u n cx w r w1 : absolute (s_cwd E) -> absolute D0 -> s_retouch E = $"auto" \/ s_retouch E = $"quit" -> s_validate E = true ->
  sctx i comps cx -> mnt_ok i D0 w -> rm_all (depth E n) (Some cx) u w = (Ok r, w1) ->
  (exists evs, w_log w1 = evs ++ w_log w /\ Forall (fun _ : event => True) evs) /\
  (s_clean E = true -> location (s_cwd E) D0 = comps_cp D0 -> forall q, dropped_record comps u q -> file_at (w_fs w1) (location (s_cwd E) D0 ++ q) = None).
Proof.
  intros Hc Hd Hret Hval Hs Hok H. pose proof Hs as (Hi & _). split.
  - destruct (rm_all_dropped E i D0 Hc Hd Hret n cx u Hi w (Ok r) w1 H Hok) as (_ & evs & Hl & _). exists evs. split; [assumption|]. apply Forall_forall. auto.
  - intros _ HD q (content & t & pre & we & re & cs & Hin & Hm & Hp & ->). eapply (rm_all_gone E i D0 Hc Hd Hret n comps cx u Hval HD Hs w r w1 Hok H); eassumption.
Qed.

(** Saving a model that was changed by deleting items from its containers: the file of every deleted record is gone,
    unless this very save put something else there. *)
Theorem C40_deleted_files_gone : forall E n p k o w o' j w' q,
  absolute (s_cwd E) -> absolute (o_base p) -> registered_classes E -> ordinary_uuids E -> faithful_methods E ->
  reads_determined E -> plain_defaults E ->
  s_retouch E = $"auto" \/ s_retouch E = $"quit" -> s_validate E = true -> s_clean E = true ->
  plain k -> k <> $".gitignore" ->
  well_formed (w_fs w) -> holds_pending E w (key_dir p k) [] o -> save E n p k o w = (Ok (o', j), w') ->
  deleted E [] o q -> let l := location (s_cwd E) (key_dir p k) ++ q in ~ own_ignore E p k l -> file_at (w_fs w') l = None \/ happened w w' (EvWrite l).
Proof.
  intros E n p k o w o' j w' q Hc Hb Hreg Huid Hfai Hdet Hdef Hret Hval Hcq Hk Hgi Hw Hbu H Hd.
  assert (Hdir : absolute (key_dir p k)) by (apply key_dir_absolute; assumption).
  destruct (saved_gone E n p k o w o' j w' (fun _ _ => True) (fun _ => True) dropped_record) as [_ Hg]; trivial.
  - intros comps u n0 cx w0 r w1 _ Hs Hok Hr. eapply any_deletion; eassumption.
  - apply Hg; assumption.
Qed.

(** What is left of the model is saved: if no removal hits what this save wrote before or the key's json file, and the
    files of waiting records are as they were, then a later run sees what the program saw. *)
Theorem C40_rest_is_kept : forall E E2 n m K M p k o w t wv o' j w' w2,
  absolute (s_cwd E) -> absolute (o_base p) -> same_code E E2 -> registered_classes E -> ordinary_uuids E -> faithful_methods E ->
  reads_determined E -> plain_defaults E ->
  s_limit E2 = None -> s_retouch E = $"auto" \/ s_retouch E = $"quit" -> s_validate E = true ->
  plain k -> k <> $".gitignore" ->
  well_formed (w_fs w) -> holds_pending E w (key_dir p k) [] o -> view E K M o w = (Ok t, wv) -> n + Nat.max K M < m ->
  save E n p k o w = (Ok (o', j), w') ->
  spares_new E (key_dir p k) (location (s_cwd E) (key_dir p k) ++ [k ++ $".json"]) w w' ->
  (forall l, happened w wv (EvRead l) -> file_at (w_fs w') l = file_at (w_fs w) l) ->
  (forall l, own_ignore E p k l -> ~ happened w w' (EvWrite l) /\ ~ happened w wv (EvRead l)) ->
  w_fs w2 = w_fs w' ->
  exists o2 w3 w4, load E2 m p k None None w2 = (Ok o2, w3) /\ view E2 m m o2 w3 = (Ok t, w4).
Proof.
  intros E E2 n m K M p k o w t wv o' j w' w2 Hc Hb Hsame Hreg Huid Hfai Hdet Hdef Hlim Hret Hval Hk Hgi Hw Hbu Hview Hnm H Hsp Hint Hcl Hw2.
  assert (Hdir : absolute (key_dir p k)) by (apply key_dir_absolute; assumption).
  apply (saved_kept E E2 n m K M p k o w t wv o' j w' w2 (fun _ _ => True) (fun _ => True) dropped_record); trivial.
  - intros comps u n0 cx w0 r w1 _ Hs Hok Hr. eapply any_deletion; eassumption.
  - right. assumption.
Qed.

(** Which files are removed can be told before saving if the deleted items are in memory (or are waiting records of
    storables that are no containers): the pending lists of [o] as a condition on the sub directory they are in. *)
Lemma holds_within E w dir (S : list str -> Prop) comps o : holds_settled E w dir comps o -> (forall q, discarded E comps o q -> S q) ->
  holds_with (fun cs u => Forall (at_rest E) u /\ forall x q, In x u -> files_of E cs x q -> S q) E w dir comps o.
Proof.
  revert comps o. fix IH 3. intros comps o H HS.
  destruct H as [comps a|comps l Hl|comps d Hd Hn|comps c d j ext ty Hk Hs|comps c fs u fds Hk Hn Hu Hf|comps q s u Hu Hi|comps p s u Hu Hi Hn|comps content t pre Hc Ho|comps ty path cx t pre Hp Hx].
  - constructor.
  - constructor. intros x Hx. apply (IH comps x (Hl x Hx)). intros q Hq. apply HS. econstructor; eassumption.
  - constructor; [|assumption]. intros k x Hx. destruct (Hd k x Hx) as [H1 H2]. split; [assumption|]. apply (IH comps x H2). intros q Hq. apply HS. econstructor; eassumption.
  - econstructor; eassumption.
  - econstructor; [eassumption|assumption|split; [assumption|]|].
    + intros x q Hx Hq. apply HS. apply del_field. eauto.
    + intros f v H1 H2 H3. destruct (Hf f v H1 H2 H3) as [H5 H4]. split; [|assumption]. apply (IH comps v H5). intros q Hq. apply HS. eapply del_in_field; eassumption.
  - constructor; [split; [assumption|]|].
    + intros x q0 Hx Hq. apply HS. apply del_item. eauto.
    + intros x Hx. apply (IH comps x (Hi x Hx)). intros q0 Hq. apply HS. eapply del_in_item; eassumption.
  - constructor; [split; [assumption|]| |assumption].
    + intros x q0 Hx Hq. apply HS. apply del_value. eauto.
    + intros k x Hx. apply (IH comps x (Hi k x Hx)). intros q0 Hq. apply HS. eapply del_in_value; eassumption.
  - constructor; [|assumption]. intros sd Hsd. apply (IH _ content (Hc sd Hsd)). intros q Hq. apply HS. apply del_in_record.
    replace (sub_of t) with (filter named_component (components sd)); [assumption|]. unfold sub_of. destruct Hsd as [->|[-> ->]]; reflexivity.
  - constructor; assumption.
Qed.
(** A save removes files through its own mount only, and closes it last. *)
Definition own_ops (i : nat) (w w' : world) : Prop :=
  exists evs, w_log w' = evs ++ w_log w /\ forall ev, In ev evs -> match ev with EvRemove j _ => j = i | EvClose _ => False | _ => True end.
Lemma own_refl i w : own_ops i w w.
Proof. exists []. split; [reflexivity|]. intros ev []. Qed.
Lemma own_trans i a b c : own_ops i a b -> own_ops i b c -> own_ops i a c.
Proof.
  intros (e1 & L1 & H1) (e2 & L2 & H2). exists (e2 ++ e1). split; [rewrite L2, L1, app_assoc; reflexivity|].
  intros ev Hx. apply in_app_or in Hx as [Hx|Hx]; [exact (H2 ev Hx)|exact (H1 ev Hx)].
Qed.
Lemma own_one i ev w w' : w_log w' = ev :: w_log w -> match ev with EvRemove j _ => j = i | EvClose _ => False | _ => True end -> own_ops i w w'.
Proof. intros H Hx. exists [ev]. split; [exact H|]. intros e [<-|[]]. exact Hx. Qed.
Lemma own_fns E i n : pres_fns (fun _ => True) (own_ops i) i (fun cx => c_mnt cx = i) (depth E n).
Proof.
  assert (Hp : forall j p ch w, own_ops i w (snd (m_prepare E j p ch w))).
  { intros j p ch w. destruct (m_prepare E j p ch w) as [r w'] eqn:H. apply m_prepare_inv in H. destruct H as [Hl|Hn|m r fs m' inp Hm Hp]; cbn [snd];
      [apply own_refl|eapply own_one; [reflexivity|exact I]|eapply own_one; [reflexivity|exact I]]. }
  apply depth_pres with (W := fun _ => True).
  - apply own_refl.
  - apply own_trans.
  - auto.
  - auto.
  - intros w _. exists []. split; [reflexivity|]. intros ev [].
  - intros l w _. destruct (m_read E l w) as [r w'] eqn:H. cbn [snd]. apply m_read_inv in H as [[_ ->]|[-> _]]; [apply own_refl|eapply own_one; [reflexivity|exact I]].
  - intros j p w _. apply Hp.
  - intros p w _. apply Hp.
  - intros p w _. destruct (m_remove E i p w) as [r w'] eqn:H. apply m_remove_inv in H. destruct H as [Hl|Hn|m r fs m' Hm Hq]; cbn [snd];
      [apply own_refl|eapply own_one; reflexivity|eapply own_one; reflexivity].
  - intros l c _ w _. destruct (m_write E l c w) as [r w'] eqn:H. apply m_write_inv in H. destruct H as [_|e _|fs Hw]; cbn [snd];
      [apply own_refl|eapply own_one; [reflexivity|exact I]|eapply own_one; [reflexivity|exact I]].
  - intros cx t w local nt w' Hc _ Hpp. split; [|auto]. unfold ctx_prepare, mbind, lift, raise in Hpp.
    destruct (ctx_absolute cx t); [|discriminate]. destruct (fspath _); [|discriminate].
    destruct (m_prepare _ _ _ _ _) as [[u|] w1]; [|discriminate]. destruct (t_name u); [|discriminate].
    destruct (t_subdir u) as [s|]; [|discriminate]. destruct (Target _ _ _ _); inversion Hpp; subst. destruct s; reflexivity.
Qed.
(** A file of the key's directory that a save neither writes nor removes is as it was. *)
Lemma saved_others E n p k o w o' j w' q : absolute (s_cwd E) -> absolute (o_base p) -> In (s_retouch E) unattended ->
  plain k -> k <> $".gitignore" -> well_formed (w_fs w) -> save E n p k o w = (Ok (o', j), w') ->
  let l := location (s_cwd E) (key_dir p k) ++ q in ~ own_ignore E p k l -> ~ happened w w' (EvWrite l) ->
  (forall i r, happened w w' (EvRemove i r) -> requested (s_cwd E) (key_dir p k) r <> l) -> file_at (w_fs w') l = file_at (w_fs w) l.
Proof.
  intros Hc Hb Hun Hk Hgi Hw H lq Hcl Hnw Hnr.
  pose proof (save_inv_log E Hc Hun p k Hb n o w o' j w' [k]) as HS. cbn zeta in HS. cbn [removelast last app] in HS.
  destruct HS as (o1 & q0 & u & wa & wb & fs1 & fs2 & mt & Ho1 & Hg & Hoka & Hser & Hokb & Hf1 & Hf2 & Hmt & Hmt' & Hmd & Hclose & Hlog);
    [discriminate|constructor; [assumption|constructor]|reflexivity|assumption|assumption|].
  set (i := List.length (w_mounts w)) in *. set (D0 := key_dir p k) in *.
  assert (Hdir : absolute D0) by (apply key_dir_absolute; assumption).
  set (D := location (s_cwd E) D0) in *. set (l := D ++ [k ++ $".json"]) in *.
  assert (Hst : m_gitignore mt = o_gitignore p /\ m_cluster mt = o_cluster p).
  { pose proof (on_ser E i D0 Hc Hdir Hun (fun _ => True) (fun _ _ => I) n (mkCtx i []) [] o1 (sctx_top i) wa Hoka) as Hons.
    rewrite Hser in Hons. destruct Hons as (_ & Hons & _). cbn [snd] in Hons.
    pose proof (statics_nth _ _ _ Hmt) as Hn. rewrite Hons in Hn. destruct Hg as (mm & touched & fs' & G1 & _ & _ & _ & _ & -> & _).
    unfold opened in G1. cbn [w_mounts] in G1. rewrite nth_error_app2, Nat.sub_diag in G1 by lia. injection G1 as <-.
    unfold statics in Hn. cbn [w_mounts] in Hn. rewrite nth_error_map, nth_set_nth in Hn. destruct (Nat.eq_dec i i); [|congruence].
    unfold opened in Hn. cbn [w_mounts] in Hn. rewrite nth_error_app2, Nat.sub_diag in Hn by (unfold i; lia). cbn in Hn. injection Hn as _ Hn1 Hn2. auto. }
  destruct Hst as [Hst1 Hst2].
  assert (Hwf2 : well_formed fs2) by (destruct Hokb as [_ Hwb]; exact (write_file_wf _ _ _ _ Hf2 (write_file_wf _ _ _ _ Hf1 Hwb))).
  assert (Hcx : forall c, Some (mkCtx i []) = Some c -> c_mnt c = i) by (intros c Hx; injection Hx as <-; reflexivity).
  pose proof (depth_traced E Hc n i) as (Ht & _). specialize (Ht (Some (mkCtx i [])) false o1 Hcx wa (proj2 Hoka)).
  pose proof (own_fns E i n) as (Ho & _). specialize (Ho (Some (mkCtx i [])) false o1 Hcx wa I).
  unfold serialize in Hser. rewrite Hser in Ht, Ho. cbn [snd] in Ht, Ho. destruct Ht as (evs & Hl & _ & _ & Hsf). destruct Ho as (evs2 & Hl2 & Hev).
  rewrite Hl in Hl2. apply app_inv_tail in Hl2. subst evs2.
  assert (Hloga : w_log wa = EvPrepare i q0 :: w_log w).
  { destruct Hg as (mm & touched & fs' & _ & _ & _ & _ & _ & -> & _). reflexivity. }
  assert (Hall : w_log w' = (EvClose i :: EvWrite l :: EvWrite l :: evs ++ [EvPrepare i q0]) ++ w_log w).
  { rewrite Hlog, Hl, Hloga. cbn [app]. rewrite <- app_assoc. reflexivity. }
  assert (Hh : forall ev, In ev evs -> happened w w' ev).
  { intros ev Hx. eexists. split; [exact Hall|]. right. right. right. apply in_or_app. left. assumption. }
  assert (Hql : lq <> l).
  { intros Hx. apply Hnw. rewrite Hx. eexists. split; [exact Hall|]. right. left. reflexivity. }
  rewrite (close_away _ _ _ _ Hc Hwf2 Hclose) by (intros Hgt Hx; rewrite Hmd, Hst2 in Hx; apply own_ignore_loc in Hx; try assumption; [contradiction|congruence]).
  rewrite (write_file_lookup _ _ _ _ Hf2). destruct (loc_eq_dec lq l); [contradiction|].
  rewrite (write_file_lookup _ _ _ _ Hf1). destruct (loc_eq_dec lq l); [contradiction|].
  rewrite Hsf.
  - destruct Hg as (mm & touched & fs' & _ & _ & _ & _ & _ & -> & Gf & _). cbn [w_fs]. rewrite Gf. reflexivity.
  - intros Hhit. remember lq as z eqn:Hz in Hhit. destruct Hhit as [l0 Hi|i0 r d Hi Hm|i0 d Hi _|i0 d Hi _].
    + apply Hnw. apply Hh. rewrite <- Hz. assumption.
    + pose proof (Hev _ Hi) as Hx. cbn in Hx. subst i0. destruct Hm as (m0 & Hm0 & <-). rewrite Hmt in Hm0. injection Hm0 as <-. rewrite Hmd in Hz.
      eapply Hnr; [apply Hh; exact Hi|exact Hz].
    + exact (Hev _ Hi).
    + exact (Hev _ Hi).
Qed.
(** The deleted items are in memory: the only files removed are those of the deleted items; they are gone or were written
    anew; and all other files of the key's directory are as they were. *)
Lemma settled_save E n p k o w o' j w' :
  absolute (s_cwd E) -> absolute (o_base p) -> registered_classes E -> ordinary_uuids E -> faithful_methods E ->
  reads_determined E -> plain_defaults E ->
  s_retouch E = $"auto" \/ s_retouch E = $"quit" -> s_validate E = true -> s_clean E = true ->
  plain k -> k <> $".gitignore" ->
  well_formed (w_fs w) -> holds_settled E w (key_dir p k) [] o -> save E n p k o w = (Ok (o', j), w') ->
  let dir := location (s_cwd E) (key_dir p k) in
  (forall i r, happened w w' (EvRemove i r) -> exists q, discarded E [] o q /\ requested (s_cwd E) (key_dir p k) r = dir ++ q) /\
  (forall q, discarded E [] o q -> ~ own_ignore E p k (dir ++ q) -> file_at (w_fs w') (dir ++ q) = None \/ happened w w' (EvWrite (dir ++ q))) /\
  (forall q, ~ discarded E [] o q -> ~ own_ignore E p k (dir ++ q) -> ~ happened w w' (EvWrite (dir ++ q)) ->
     file_at (w_fs w') (dir ++ q) = file_at (w_fs w) (dir ++ q)).
Proof.
  intros Hc Hb Hreg Huid Hfai Hdet Hdef Hret Hval Hcq Hk Hgi Hw Hbu H dir.
  assert (Hdir : absolute (key_dir p k)) by (apply key_dir_absolute; assumption).
  set (S := discarded E [] o).
  pose proof (holds_within E w (key_dir p k) S [] o Hbu (fun q Hq => Hq)) as HbS.
  set (U := fun cs u => Forall (at_rest E) u /\ forall x q, In x u -> files_of E cs x q -> S q) in HbS.
  set (Pev := fun ev => match ev with EvRemove _ r => exists q, S q /\ requested (s_cwd E) (key_dir p k) r = dir ++ q | _ => True end).
  set (R := fun comps u q => exists x, In x u /\ files_of E comps x q).
  destruct (saved_gone E n p k o w o' j w' U Pev R) as [Hev Hg]; trivial; [intros; exact I|intros; exact I| |].
  { intros comps u n0 cx w0 r w1 [Hu1 Hu2] Hs Hok Hr.
    destruct (rm_all_swept E _ (key_dir p k) Hc Hdir Hret Hval n0 comps cx u w0 r w1 Hu1 Hs Hok Hr) as (_ & _ & (evs & Hl & He) & Hf). split.
    - exists evs. split; [assumption|]. apply Forall_forall. intros [| | |i0 r0| |] Hev; try exact I. destruct (He i0 r0 Hev) as (q & (x & Hx & Hq) & Hreq). exists q. split; [eapply Hu2; eassumption|exact Hreq].
    - intros _ HD q Hq. apply Hf; assumption. }
  assert (Hrem : forall i r, happened w w' (EvRemove i r) -> exists q, S q /\ requested (s_cwd E) (key_dir p k) r = dir ++ q).
  { intros i r Hr. destruct (Hev _ Hr) as [Hx|Hx]; [exact Hx|discriminate]. }
  split; [exact Hrem|]. split; [intros q Hq Hnq; exact (Hg Hcq q Hq Hnq)|].
  intros q Hq Hnq Hnw. eapply (saved_others E n p k o w o' j w' q); try eassumption; [destruct Hret as [-> | ->]; [left|right; left]; reflexivity|].
  intros i r Hr Hx. destruct (Hrem i r Hr) as (q' & Hq' & Hx'). rewrite Hx in Hx'. apply app_inv_head in Hx'. subst q'. contradiction.
Qed.
(** The items deleted from the model are in memory, and no record of this save is stored where one of their files is:
    the only files removed are those of the deleted items; they are gone; every other file that is not written is as it was;
    and a later run sees what the program saw. *)
Theorem C40_deletes_exactly : forall E E2 n m K M p k o w t wv o' j w' w2,
  absolute (s_cwd E) -> absolute (o_base p) -> same_code E E2 -> registered_classes E -> ordinary_uuids E -> faithful_methods E ->
  reads_determined E -> plain_defaults E ->
  s_limit E2 = None -> s_retouch E = $"auto" \/ s_retouch E = $"quit" -> s_validate E = true -> s_clean E = true ->
  plain k -> k <> $".gitignore" ->
  well_formed (w_fs w) -> holds_settled E w (key_dir p k) [] o -> view E K M o w = (Ok t, wv) -> n + Nat.max K M < m ->
  save E n p k o w = (Ok (o', j), w') ->
  let dir := location (s_cwd E) (key_dir p k) in
  (forall q, discarded E [] o q -> ~ happened w w' (EvWrite (dir ++ q))) ->
  (forall l, happened w wv (EvRead l) -> file_at (w_fs w') l = file_at (w_fs w) l) ->
  (forall l, own_ignore E p k l -> ~ happened w w' (EvWrite l) /\ ~ happened w wv (EvRead l)) ->
  w_fs w2 = w_fs w' ->
  (forall i r, happened w w' (EvRemove i r) -> exists q, discarded E [] o q /\ requested (s_cwd E) (key_dir p k) r = dir ++ q) /\
  (forall q, discarded E [] o q -> ~ own_ignore E p k (dir ++ q) -> file_at (w_fs w') (dir ++ q) = None) /\
  (forall q, ~ discarded E [] o q -> ~ own_ignore E p k (dir ++ q) -> ~ happened w w' (EvWrite (dir ++ q)) ->
     file_at (w_fs w') (dir ++ q) = file_at (w_fs w) (dir ++ q)) /\
  exists o2 w3 w4, load E2 m p k None None w2 = (Ok o2, w3) /\ view E2 m m o2 w3 = (Ok t, w4).
Proof.
  intros E E2 n m K M p k o w t wv o' j w' w2 Hc Hb Hsame Hreg Huid Hfai Hdet Hdef Hlim Hret Hval Hcq Hk Hgi Hw Hbu Hview Hnm H dir Hnew Hint Hcl Hw2.
  assert (Hdir : absolute (key_dir p k)) by (apply key_dir_absolute; assumption).
  set (S := discarded E [] o).
  pose proof (holds_within E w (key_dir p k) S [] o Hbu (fun q Hq => Hq)) as HbS.
  set (U := fun cs u => Forall (at_rest E) u /\ forall x q, In x u -> files_of E cs x q -> S q) in HbS.
  set (Pev := fun ev => match ev with EvRemove _ r => exists q, S q /\ requested (s_cwd E) (key_dir p k) r = dir ++ q | _ => True end).
  set (R := fun comps u q => exists x, In x u /\ files_of E comps x q).
  assert (HU : forall comps u n cx w0 r w1, U comps u -> sctx (List.length (w_mounts w)) comps cx -> mnt_ok (List.length (w_mounts w)) (key_dir p k) w0 ->
     rm_all (depth E n) (Some cx) u w0 = (Ok r, w1) ->
     (exists evs, w_log w1 = evs ++ w_log w0 /\ Forall Pev evs) /\
     (s_clean E = true -> dir = comps_cp (key_dir p k) -> forall q, R comps u q -> file_at (w_fs w1) (dir ++ q) = None)).
  { intros comps u n0 cx w0 r w1 [Hu1 Hu2] Hs Hok Hr.
    destruct (rm_all_swept E _ (key_dir p k) Hc Hdir Hret Hval n0 comps cx u w0 r w1 Hu1 Hs Hok Hr) as (_ & _ & (evs & Hl & He) & Hf). split.
    - exists evs. split; [assumption|]. apply Forall_forall. intros [| | |i0 r0| |] Hev; try exact I. destruct (He i0 r0 Hev) as (q & (x & Hx & Hq) & Hreq). exists q. split; [eapply Hu2; eassumption|exact Hreq].
    - intros _ HD q Hq. apply Hf; assumption. }
  destruct (settled_save E n p k o w o' j w') as (Hrem & Hg & Hoth); trivial.
  split; [exact Hrem|]. split; [|split; [exact Hoth|]].
  - intros q Hq Hnq. destruct (Hg q Hq Hnq) as [Hx|Hx]; [exact Hx|exfalso; eapply Hnew; eassumption].
  - apply (saved_kept E E2 n m K M p k o w t wv o' j w' w2 U Pev R); trivial; [intros; exact I|intros; exact I|].
    left. intros i r (q & Hq & Hreq). cbn zeta. rewrite Hreq. pose proof (Hnew q Hq) as Hn. split; [|exact Hn]. intros Hx. apply Hn. rewrite Hx. unfold dir.
    assert (Hun : In (s_retouch E) unattended) by (destruct Hret as [-> | ->]; [left|right; left]; reflexivity).
    pose proof (save_inv_log E Hc Hun p k Hb n o w o' j w' [k]) as HS. cbn zeta in HS. cbn [removelast last app] in HS.
    destruct HS as (o1 & q1 & u & wa & wb & fs1 & fs2 & mt & _ & Hgv & _ & Hser & _ & _ & _ & _ & _ & _ & _ & Hlog);
      [discriminate|constructor; [assumption|constructor]|reflexivity|assumption|assumption|].
    assert (Hloga : w_log wa = EvPrepare (List.length (w_mounts w)) q1 :: w_log w).
    { destruct Hgv as (mm & touched & fs' & _ & _ & _ & _ & _ & -> & _). reflexivity. }
    pose proof (ser_made E (List.length (w_mounts w)) n (mkCtx (List.length (w_mounts w)) []) false o1 wa _ wb eq_refl Hser) as (_ & evs & Hl & _).
    eexists (EvClose _ :: EvWrite _ :: EvWrite _ :: evs ++ [EvPrepare _ q1]). split; [|right; left; reflexivity].
    rewrite Hlog, Hl, Hloga. cbn [app]. rewrite <- app_assoc. reflexivity.
Qed.

(** ** An example *)
(** The model of C64's example after loading: the program deletes the item at "uuid0.bin" without having looked at it and
    adds another one. *)
Definition dl_model : obj :=
  OModel 1 [($"name", OSeq (mkSeq false [] false None) [OAtom (AInt 3); fresh_record (blob "new")] [kp_waiting "_sto__blob" "uuid0.bin"]);
            ($"data", kp_waiting "_sto__mlist" "data.json"); ($"tmp", OAtom (AInt 7))] [].
Lemma dl_places : places (from_path ($"uuid0.bin")) [$"uuid0.bin"].
Proof.
  exists [], ($"uuid0.bin"). repeat split; try discriminate; cbn; try (intros Hx; repeat destruct Hx as [Hx|Hx]; try discriminate; contradiction).
  intros [x Hx]. discriminate.
Qed.
Lemma dl_holds (U : list str -> list obj -> Prop) : U [] [] -> U [] [kp_waiting "_sto__blob" "uuid0.bin"] -> holds_with U rt_env kp_world (key_dir ex_opts ($"new")) [] dl_model.
Proof.
  intros U1 U2.
  assert (Hcx : context_at rt_env kp_world (mkCtx 0 []) (key_dir ex_opts ($"new")) []).
  { eexists. split; [vm_compute; reflexivity|]. split; [exists ex_fs, true, true, [], ex_fs; split; [constructor|reflexivity]|split; [reflexivity|constructor]]. }
  unfold dl_model. eapply h_model; [reflexivity| |assumption|].
  - cbn. repeat (apply NoDup_cons; [intros Hy; cbn in Hy; repeat destruct Hy as [Hy|Hy]; try discriminate; contradiction|]). apply NoDup_nil.
  - intros f v Hf Hno Ha. cbn in Hf. destruct Hf as [<-|[<-|[<-|[]]]]; [| |discriminate Hno].
    + match type of Ha with assoc _ [(_, ?o); _; _] = _ => assert (Hv : v = o) by (enough (Hx0 : Some v = Some o) by congruence; rewrite <- Ha; reflexivity) end.
      subst v. split; [|discriminate]. apply h_seq; [assumption|]. intros y [<-|[<-|[]]]; [apply h_atom|]. apply h_rec; [intros sd _; eapply h_leaf; reflexivity|apply auto_ordinary; apply rt_uuids].
    + match type of Ha with assoc _ [_; (_, ?o); _] = _ => assert (Hv : v = o) by (enough (Hx0 : Some v = Some o) by congruence; rewrite <- Ha; reflexivity) end.
      subst v. split; [|discriminate]. apply h_waiting; [vm_compute; reflexivity|assumption].
Qed.
Lemma dl_discarded q : discarded rt_env [] dl_model q -> q = [$"uuid0.bin"].
Proof.
  assert (Hw : forall ty path q0, discarded rt_env [] (kp_waiting ty path) q0 -> False).
  { intros ty path q0 Hx. inversion Hx as [| | | | |cs1 c1 t1 pre1 we1 re1 q1 Hd1| | |]; subst. inversion Hd1. }
  intros H. inversion H as [| |cs1 c1 fs1 u1 fds1 f v q2 Hk1 Hx Hno Ha Hxd| | | |cs1 c1 fs1 u1 q2 Hdr| |]; subst; [|destruct Hdr as (x & [] & _)].
  cbn in Hk1. injection Hk1 as <-. cbn in Hx. destruct Hx as [<-|[<-|[<-|[]]]]; [| |discriminate Hno].
  - match type of Ha with assoc _ [(_, ?o); _; _] = _ => assert (Hv : v = o) by (enough (Hx0 : Some v = Some o) by congruence; rewrite <- Ha; reflexivity) end. subst v.
    inversion Hxd as [| | |cs1 q1 s1 u1 x q2 Hx Hxd'| | | |cs1 q1 s1 u1 q2 Hdr|]; subst.
    + destruct Hx as [<-|[<-|[]]]; [inversion Hxd'|]. inversion Hxd' as [| | | | |cs1 c1 t1 pre1 we1 re1 q1 Hd1| | |]; subst. inversion Hd1.
    + destruct Hdr as (x & [<-|[]] & Hf). inversion Hf as [| | | | |cs1 c1 t1 pre1 we1 re1 cs2 Hp|cs1 c1 t1 pre1 we1 re1 q1 Hd1]; subst; [|inversion Hd1].
      cbn [app]. eapply places_unique; [exact Hp|apply dl_places].
  - match type of Ha with assoc _ [_; (_, ?o); _] = _ => assert (Hv : v = o) by (enough (Hx0 : Some v = Some o) by congruence; rewrite <- Ha; reflexivity) end. subst v.
    exfalso. eapply Hw. exact Hxd.
Qed.
Example C40_example :
  s_clean rt_env = true /\ holds_settled rt_env kp_world (key_dir ex_opts ($"new")) [] dl_model /\ holds_pending rt_env kp_world (key_dir ex_opts ($"new")) [] dl_model /\
  let dir := location (s_cwd rt_env) (key_dir ex_opts ($"new")) in
  exists q t wv o' j w', discarded rt_env [] dl_model q /\ deleted rt_env [] dl_model q /\ file_at (w_fs kp_world) (dir ++ q) <> None /\
    view rt_env 11 11 dl_model kp_world = (Ok t, wv) /\ save rt_env 10 ex_opts ($"new") dl_model kp_world = (Ok (o', j), w') /\
    file_at (w_fs w') (dir ++ q) = None /\
    (forall q', discarded rt_env [] dl_model q' -> ~ happened kp_world w' (EvWrite (dir ++ q'))) /\
    spares_new rt_env (key_dir ex_opts ($"new")) (dir ++ [$"new" ++ $".json"]) kp_world w' /\
    (forall l, happened kp_world wv (EvRead l) -> file_at (w_fs w') l = file_at (w_fs kp_world) l) /\
    (exists l, happened kp_world wv (EvRead l)) /\ exists l, happened kp_world w' (EvWrite l) /\ l <> dir ++ [$"new" ++ $".json"].
Proof.
  split; [vm_compute; reflexivity|]. split; [apply dl_holds; [constructor|]|].
  { constructor; [|constructor]. eapply st_waiting; [vm_compute; reflexivity|apply dl_places]. }
  split; [apply dl_holds; exact I|]. intros dir.
  assert (Hdl : exists x, In x [kp_waiting "_sto__blob" "uuid0.bin"] /\ files_of rt_env [] x [$"uuid0.bin"]).
  { eexists. split; [left; reflexivity|]. apply (fo_record rt_env [] _ _ _ _ _ [$"uuid0.bin"]). apply dl_places. }
  assert (Hdr : dropped_record [] [kp_waiting "_sto__blob" "uuid0.bin"] [$"uuid0.bin"]).
  { eexists _, _, _, _, _, [$"uuid0.bin"]. split; [left; reflexivity|]. split; [discriminate|]. split; [apply dl_places|reflexivity]. }
  assert (Hin : forall (R : list str -> list obj -> list str -> Prop) q, R [] [kp_waiting "_sto__blob" "uuid0.bin"] q -> deleted_with R rt_env [] dl_model q).
  { intros R q HR. eapply del_in_field with (f := hd (mkMField [] None false None) ex_fields) (v := OSeq (mkSeq false [] false None) [OAtom (AInt 3); fresh_record (blob "new")] [kp_waiting "_sto__blob" "uuid0.bin"]);
      [reflexivity|left; reflexivity|reflexivity|reflexivity|apply del_item; exact HR]. }
  exists [$"uuid0.bin"].
  let v := eval vm_compute in (view rt_env 11 11 dl_model kp_world) in
  let x := eval vm_compute in (save rt_env 10 ex_opts ($"new") dl_model kp_world) in
  match v with (Ok ?t, ?wv) => match x with (Ok (?o, ?j), ?w') => exists t, wv, o, j, w' end end.
  split; [apply Hin; exact Hdl|]. split; [apply Hin; exact Hdr|]. split; [vm_compute; discriminate|].
  split; [vm_compute; reflexivity|]. split; [vm_compute; reflexivity|]. split; [vm_compute; reflexivity|].
  assert (Hno : forall w' l, (if in_dec (list_eq_dec str_eq_dec) l (map (fun e => match e with EvWrite l => l | _ => [] end) (firstn (List.length (w_log w') - List.length (w_log kp_world)) (w_log w'))) then true else false) = false ->
    ~ happened kp_world w' (EvWrite l)).
  { intros w' l Hx Hh. apply happened_in in Hh. destruct (in_dec _ _ _) as [|Hni] in Hx; [discriminate|]. apply Hni. apply (in_map (fun e => match e with EvWrite l => l | _ => [] end)) in Hh. exact Hh. }
  split; [intros q' Hq'; apply dl_discarded in Hq'; subst q'; apply Hno; vm_compute; reflexivity|].
  split.
  { intros a j0 p0 b Hl. assert (Hr : requested (s_cwd rt_env) (key_dir ex_opts ($"new")) p0 = dir ++ [$"uuid0.bin"]).
    { match type of Hl with w_log ?w' = _ => assert (Hh : happened kp_world w' (EvRemove j0 p0)) by (exists (a ++ EvRemove j0 p0 :: b); split; [rewrite <- app_assoc; exact Hl|apply in_elt]) end.
      apply happened_in in Hh. vm_compute in Hh. repeat destruct Hh as [Hh|Hh]; try discriminate; try contradiction. injection Hh as <- <-. vm_compute. reflexivity. }
    rewrite Hr. split; [vm_compute; discriminate|]. intros Hx.
    match type of Hl with w_log ?w' = _ => apply (Hno w' (dir ++ [$"uuid0.bin"])) end; [vm_compute; reflexivity|].
    exists (a ++ EvRemove j0 p0 :: b). split; [rewrite <- app_assoc; exact Hl|]. apply in_or_app. right. right. assumption. }
  split; [intros l H; apply happened_in in H; vm_compute in H; repeat destruct H as [H|H]; try discriminate; try contradiction; injection H as <-; vm_compute; reflexivity|].
  split.
  - match goal with |- exists l, happened _ ?w _ => let e := eval vm_compute in (firstn (List.length (w_log w) - List.length (w_log kp_world)) (w_log w)) in
      match e with context [EvRead ?l] => exists l; exists e end end. split; [vm_compute; reflexivity|]. cbn. tauto.
  - exists (dir ++ [$"uuid5.bin"]). split; [|vm_compute; discriminate].
    match goal with |- happened _ ?w _ => let e := eval vm_compute in (firstn (List.length (w_log w) - List.length (w_log kp_world)) (w_log w)) in exists e end.
    split; [vm_compute; reflexivity|]. vm_compute. tauto.
Qed.

(** ** C41 *)
Lemma keyed_target E c d key su w t' w' : usual_suffix E (OLeaf c d) su ->
  rec_target E (OLeaf c d) (mkTarget (Some []) (Some key) None) w = (Ok t', w') -> t' = mkTarget (Some []) (Some key) (Some su).
Proof.
  intros Hu H. unfold rec_target in H. cbn [is_complete t_subdir t_stem t_suffix] in H. unfold m_uuid, mbind, ret in H. injection H as <- _.
  inversion Hu as [c0 d0 j x Hk|c0 d0 Hk|c0 d0 Hk| | |]; subst; cbn [ext_of json_like]; rewrite Hk; reflexivity.
Qed.
(** A model with two mdicts that store their items by key, in one directory: an item was taken out of the second one and
    put into the first one.  Every successful save writes the item's file and then deletes it. *)
Theorem C41_moved_item_lost : forall E n p k c fa fb pa pb key cl d su pre u content t pre' we re nm w o' j w',
  absolute (s_cwd E) -> absolute (o_base p) -> registered_classes E -> faithful_methods E ->
  s_retouch E = $"auto" \/ s_retouch E = $"quit" -> s_validate E = true ->
  plain k -> k <> $".gitignore" -> well_formed (w_fs w) ->
  k_kind (s_class E c) = SModel [fa; fb] -> k_ser (s_class E c) = Some nm -> mf_noser fa = false -> mf_noser fb = false -> mf_name fa <> mf_name fb ->
  usual_suffix E (OLeaf cl d) su -> plain (key ++ su) -> key ++ su <> k ++ $".json" ->
  In (ORec content t pre' we re) u -> places t [key ++ su] -> (forall m, content <> OMark m) ->
  let o := OModel c [(mf_name fa, OMap pa [(key, ORec (OLeaf cl d) (mkTarget (Some []) (Some key) None) pre None None)] []);
                     (mf_name fb, OMap pb [] u)] [] in
  save E n p k o w = (Ok (o', j), w') ->
  let l := location (s_cwd E) (key_dir p k) ++ [key ++ su] in ~ own_ignore E p k l ->
  happened w w' (EvWrite l) /\ file_at (w_fs w') l = None /\
  exists out, places out [key ++ su] /\
    o' = OModel c [(mf_name fa, OMap pa [(key, ORec (OLeaf cl d) out pre None None)] []); (mf_name fb, OMap pb [] [])] [].
Proof.
  intros E n p k c fa fb pa pb key cl d su pre u content t pre' we re nm w o' j w' Hc Hb Hreg Hfai Hret Hval Hk Hgi Hw Hkind Hnm Hna Hnb Hne Hus Hpn Hkj Hin Hp Hmk o H lf Hcl.
  assert (Hun : In (s_retouch E) unattended) by (destruct Hret as [-> | ->]; [left|right; left]; reflexivity).
  pose proof (save_inv_log E Hc Hun p k Hb n o w o' j w' [k]) as HS. cbn zeta in HS. cbn [removelast last app] in HS.
  destruct HS as (o1 & q & uu & wa & wb & fs1 & fs2 & mt & Ho1 & Hg & Hoka & Hser & Hokb & Hf1 & Hf2 & Hmt & Hmt' & Hmd & Hclose & Hlog);
    [discriminate|constructor; [assumption|constructor]|reflexivity|assumption|assumption|].
  set (i := List.length (w_mounts w)) in *. set (D0 := key_dir p k) in *.
  assert (Hdir : absolute D0) by (apply key_dir_absolute; assumption).
  set (D := location (s_cwd E) D0) in *. set (l := D ++ [k ++ $".json"]) in *.
  pose proof (proj1 Hreg c _ nm Hkind Hnm) as Hty.
  destruct Ho1 as [[-> _]|(_ & Ho1 & _)]; [|cbn in Ho1; rewrite Hnm, Hty in Ho1; discriminate].
  destruct (gave_claims E i D0 Hret q _ uu [k ++ $".json"] [k ++ $".json"] wa Hg (opened_ok p k w Hw)) as (Gc & _ & _ & HD).
  pose proof (sctx_top i) as Hs.
  assert (Hst : m_gitignore mt = o_gitignore p /\ m_cluster mt = o_cluster p).
  { pose proof (on_ser E i D0 Hc Hdir Hun (fun _ => True) (fun _ _ => I) n (mkCtx i []) [] o (sctx_top i) wa Hoka) as Hons.
    rewrite Hser in Hons. destruct Hons as (_ & Hons & _). cbn [snd] in Hons.
    pose proof (statics_nth _ _ _ Hmt) as Hn. rewrite Hons in Hn. destruct Hg as (mm & touched & fs' & G1 & _ & _ & _ & _ & -> & _).
    unfold opened in G1. cbn [w_mounts] in G1. rewrite nth_error_app2, Nat.sub_diag in G1 by lia. injection G1 as <-.
    unfold statics in Hn. cbn [w_mounts] in Hn. rewrite nth_error_map, nth_set_nth in Hn. destruct (Nat.eq_dec i i); [|congruence].
    unfold opened in Hn. cbn [w_mounts] in Hn. rewrite nth_error_app2, Nat.sub_diag in Hn by (unfold i; lia). cbn in Hn. injection Hn as _ Hn1 Hn2. auto. }
  destruct Hst as [Hst1 Hst2].
  assert (Hwf2 : well_formed fs2) by (destruct Hokb as [_ Hwb]; exact (write_file_wf _ _ _ _ Hf2 (write_file_wf _ _ _ _ Hf1 Hwb))).
  assert (Hll : lf <> l) by (unfold lf, l; intros Hx; apply app_inv_head in Hx; congruence).
  assert (Hf2l : file_at fs2 lf = file_at (w_fs wb) lf).
  { rewrite (write_file_lookup _ _ _ _ Hf2). destruct (loc_eq_dec lf l); [contradiction|].
    rewrite (write_file_lookup _ _ _ _ Hf1). destruct (loc_eq_dec lf l); [contradiction|reflexivity]. }
  assert (Hgone : file_at (w_fs wb) lf = None -> file_at (w_fs w') lf = None).
  { intros Hx. rewrite (close_away _ _ _ _ Hc Hwf2 Hclose), Hf2l; [assumption|]. intros Hgt Hz. rewrite Hmd, Hst2 in Hz. apply own_ignore_loc in Hz; try assumption; [contradiction|congruence]. }
  assert (Hhap : happened wa wb (EvWrite lf) -> happened w w' (EvWrite lf)).
  { intros (evs & He & Hx). destruct Hg as (mm & touched & fs' & _ & _ & _ & _ & _ & -> & _). cbn [w_log opened] in He.
    exists (EvClose i :: EvWrite l :: EvWrite l :: evs ++ [EvPrepare i q]). split; [rewrite Hlog, He; cbn [app]; rewrite <- app_assoc; reflexivity|].
    right. right. right. apply in_or_app. left. assumption. }
  (* the serialization of the model *)
  unfold serialize in Hser. destruct n as [|n]; [discriminate|]. change (f_ser (depth E (S n))) with (ser_body E (depth E n)) in Hser.
  assert (Hm : ser_method E (depth E n) (Some (mkCtx i [])) o = Some (nm, ser_model E (depth E n) (Some (mkCtx i [])) c [fa; fb]
      [(mf_name fa, OMap pa [(key, ORec (OLeaf cl d) (mkTarget (Some []) (Some key) None) pre None None)] []); (mf_name fb, OMap pb [] u)] []))
    by (unfold o; cbn [ser_method]; rewrite Hnm, Hty, Hkind; reflexivity).
  eapply (run_method E Hval) in Hser as (p1 & Hser & _); [|discriminate|discriminate|discriminate|exact Hm]. clear Hm.
  unfold ser_model in Hser. apply mbind_ok in Hser as (r0 & w0 & H0 & Hser).
  assert (w0 = wa /\ r0 = []) as [-> ->] by (destruct (s_clean E); cbn in H0; unfold ret in H0; injection H0 as <- <-; auto). clear H0.
  apply mbind_ok in Hser as ([fs' dd] & w1 & Hfl & Hser). unfold ret in Hser. cbn [fst snd] in Hser. injection Hser as <- _ <-.
  cbn [ser_fields_m] in Hfl. rewrite Hna, Hnb in Hfl. cbn [assoc fst snd] in Hfl. destruct (str_eq_dec (mf_name fa) (mf_name fa)) as [_|]; [|congruence].
  apply mbind_ok in Hfl as ([oa ja] & w2 & Ha & Hfl). cbn [fst snd] in Hfl.
  assert (Hset : forall x y : obj, assoc_set (mf_name fa) x [(mf_name fa, y); (mf_name fb, OMap pb [] u)] = [(mf_name fa, x); (mf_name fb, OMap pb [] u)]).
  { intros x y. cbn [assoc_set]. destruct (str_eq_dec _ _); [reflexivity|congruence]. }
  rewrite Hset in Hfl. cbn [assoc] in Hfl. destruct (str_eq_dec (mf_name fa) (mf_name fb)) as [|_]; [contradiction|].
  destruct (str_eq_dec (mf_name fb) (mf_name fb)) as [_|]; [|congruence].
  apply mbind_ok in Hfl as ([y z] & w3 & Hb2 & Hfl). apply mbind_ok in Hb2 as ([ob jb] & w4 & Hb2 & Hy).
  unfold ret in Hy, Hfl. cbn [fst snd] in Hy, Hfl.
  match type of Hy with _ = (Ok (y, z), w3) => injection Hy as <- <- <- end. injection Hfl as <- _ <-.
  cbn [assoc_set]. destruct (str_eq_dec (mf_name fa) (mf_name fb)) as [|_]; [contradiction|]. destruct (str_eq_dec (mf_name fb) (mf_name fb)) as [_|]; [|congruence].
  (* the first mdict *)
  destruct n as [|n]; [discriminate|]. change (f_ser (depth E (S n))) with (ser_body E (depth E n)) in Ha, Hb2.
  eapply (run_method E Hval) in Ha as (pja & Ha & _); [|discriminate|discriminate|discriminate|cbn [ser_method]; reflexivity].
  eapply (run_method E Hval) in Hb2 as (pjb & Hb2 & _); [|discriminate|discriminate|discriminate|cbn [ser_method]; reflexivity].
  unfold ser_map in Ha, Hb2. cbn [rm_all mapM] in Ha. apply mbind_ok in Ha as (r5 & w5 & H5 & Ha). unfold ret in H5. injection H5 as _ <-.
  apply mbind_ok in Ha as (items & w6 & H6 & Ha). apply mbind_ok in H6 as (x7 & w7 & H7 & H6). apply mbind_ok in H7 as ([x8 s8] & w8 & H8 & H7).
  unfold ret in H6, H7. cbn [fst snd] in H7, H8. injection H7 as <- <-. injection H6 as <- <-.
  cbn [ser_item rec_exists] in H8. rewrite orb_true_r in H8. apply mbind_ok in H8 as ([orec jrec] & w9 & H9 & H8). unfold ret in H8. cbn [fst snd] in H8. injection H8 as <- <- <-.
  cbn [map fst snd dangling flat_map app rm_all mapM] in Ha. apply mbind_ok in Ha as (ra & w10 & H10 & Ha).
  assert (w10 = w9) as -> by (destruct (s_clean E); cbn in H10; unfold ret in H10; injection H10 as _ <-; reflexivity). clear H10.
  unfold ret in Ha. injection Ha as <- _ <-.
  destruct n as [|n]; [discriminate|]. change (f_ser (depth E (S n))) with (ser_body E (depth E n)) in H9.
  eapply (run_method E Hval) in H9 as (pjr & H9 & _); [|discriminate|discriminate|discriminate|cbn [ser_method]; reflexivity].
  apply ser_rec_loaded in H9 as (dir & w0 & t' & w11 & out & we' & c' & _ & -> & H1 & H2 & -> & _); [|intros ? ? ? ?; discriminate].
  pose proof (keyed_target _ _ _ _ _ _ _ _ Hus H1) as ->. apply rec_target_still in H1 as (ku & -> & _).
  set (w1 := mkWorld (w_fs wa) (w_mounts wa) (w_inputs wa) ku (w_log wa)) in *. assert (Hok1 : mnt_ok i D0 w1) by exact Hoka.
  assert (Hpl : places (mkTarget (Some []) (Some key) (Some su)) [key ++ su]).
  { exists [], (key ++ su). split; [reflexivity|]. split; [reflexivity|]. split; [assumption|]. split; [intros [x Hx]; discriminate|]. split; [intros Hx; cbn in Hx; destruct Hx as [Hx|[]]; discriminate|reflexivity]. }
  destruct (ctx_write_inv E i D0 Hc Hdir Hun _ _ [] _ _ _ w1 out we' c' _ Hok1 Hs Hpl H2)
    as (pp & u2 & n' & w12 & local & Hn' & Hg2 & Hok2 & Hpo & _ & Hsl & [(-> & Hwr)|(_ & _ & Hv & _)]); [|congruence].
  cbn [app removelast] in Hg2, Hpo, Hsl, Hwr.
  assert (n' = key ++ su) as ->.
  { destruct Hg2 as (m2 & touched & fs' & G1 & _ & _ & _ & _ & _ & _ & _ & _ & _ & G11).
    enough (Hx : [n'] = [key ++ su]) by congruence. apply G11. intros v s0 Hv Hr ->.
    assert (Hcl0 : claimed E i D0 wa (D ++ [key ++ su])) by (exists m2, v, [key ++ su]; auto).
    apply Gc in Hcl0 as [(m3 & v3 & r3 & C1 & C2 & _)|Hx]; [|apply Hll; exact Hx].
    unfold opened in C1. cbn [w_mounts] in C1. rewrite nth_error_app2, Nat.sub_diag in C1 by (unfold i; lia). injection C1 as <-. contradiction C2. }
  fold D in Hwr. fold lf in Hwr.
  assert (Hwrote : happened wa w9 (EvWrite lf) /\ c' = OLeaf cl d /\ mnt_ok i D0 w9).
  { unfold write_storable in Hwr. destruct (s_write E cl (List.length (w_log w12)) d) as [left e] eqn:Ew.
    apply mbind_ok in Hwr as (uu3 & w13 & Hwr & He). destruct e as [e|]; [discriminate|]. unfold ret in He. injection He as <- <-.
    destruct (Hfai cl _ d left Ew) as (x & -> & _). split; [|split; [reflexivity|]].
    - destruct Hg2 as (m2 & touched & fs' & _ & _ & _ & _ & _ & -> & _). apply m_write_inv in Hwr. inversion Hwr; subst. cbn [set_fs logged w_log].
      exists [EvWrite lf; EvPrepare i pp]. split; [reflexivity|left; reflexivity].
    - apply m_write_ok in Hwr as (W1 & _ & W3). destruct Hok2 as [K1 K2]. split; [rewrite W1; exact K1|apply W3; exact K2]. }
  destruct Hwrote as (Hwrote & -> & Hok9).
  (* the second mdict *)
  apply mbind_ok in Hb2 as (r20 & w20 & H20 & Hb2). cbn [mapM] in Hb2. rewrite mbind_run in Hb2. unfold ret at 1 in Hb2. cbn [map dangling flat_map rm_all mapM] in Hb2.
  apply mbind_ok in Hb2 as (r21 & w21 & H21 & Hb2).
  assert (w21 = w20) as -> by (destruct (s_clean E); cbn in H21; unfold ret in H21; injection H21 as _ <-; reflexivity). clear H21.
  unfold ret in Hb2. injection Hb2 as <- _ <-.
  pose proof (rm_all_gone E i D0 Hc Hdir Hret _ [] _ u Hval HD Hs _ _ _ Hok9 H20 content t pre' we re [key ++ su] Hin Hp Hmk) as Hgo.
  destruct (rm_all_dropped E i D0 Hc Hdir Hret _ (mkCtx i []) u eq_refl _ _ _ H20 Hok9) as (_ & evs & Hl20 & _).
  split; [|split; [apply Hgone; exact Hgo|]].
  - apply Hhap. destruct Hwrote as (e1 & He1 & Hx). exists (evs ++ e1). rewrite Hl20, He1, app_assoc. split; [reflexivity|]. apply in_or_app. right. assumption.
  - exists out. split; [exact Hpo|reflexivity].
Qed.

(** The item "a" of the model saved under "new" moves from the mdict "second" to the mdict "first". *)
Definition mv_fields : list mfield := [mkMField ($"first") None false None; mkMField ($"second") None false None].
Definition mv_env : senv :=
  mkSenv (fun c => match c with 0 => ex_class 0 | 1 => mkSClass (SModel mv_fields) (Some ($"_ser__pair")) (Some ($"_sto__pair")) | _ => mkSClass (SModel []) None None end)
    (s_ser rt_env) (s_sto rt_env) (s_write rt_env) (s_read rt_env) (s_uuid rt_env)
    (s_float rt_env) (s_cwd rt_env) (s_retouch rt_env) (s_validate rt_env) (s_clean rt_env) (s_suffix rt_env) (s_limit rt_env).
Definition mv_model (a b : list (str * obj)) (u : list obj) : obj :=
  OModel 1 [($"first", OMap (mkMap false [] false true false) a []); ($"second", OMap (mkMap false [] false true false) b u)] [].
Definition mv_before : obj := mv_model [] [($"a", ORec (blob "one") (mkTarget (Some []) (Some ($"a")) None) false None None)] [].
Definition mv_after : obj :=
  mv_model [($"a", ORec (blob "one") (mkTarget (Some []) (Some ($"a")) None) false None None)] []
           [ORec (blob "one") (mkTarget (Some []) (Some ($"a")) (Some ($".bin"))) false None None].
Definition mv_world : world := snd (save mv_env 10 ex_opts ($"new") mv_before ex_world).
Example C41_example :
  registered_classes mv_env /\ faithful_methods mv_env /\ usual_suffix mv_env (blob "one") ($".bin") /\ well_formed (w_fs mv_world) /\
  file_at (w_fs mv_world) (location (s_cwd mv_env) (key_dir ex_opts ($"new")) ++ [$"a" ++ $".bin"]) = Some (Text ($"one")) /\
  places (mkTarget (Some []) (Some ($"a")) (Some ($".bin"))) [$"a" ++ $".bin"] /\
  exists o' j w' o2 w3 x w4, save mv_env 10 ex_opts ($"new") mv_after mv_world = (Ok (o', j), w') /\
    load mv_env 20 ex_opts ($"new") None None w' = (Ok o2, w3) /\ view mv_env 20 20 o2 w3 = (x, w4) /\ forall t, x <> Ok t.
Proof.
  split; [split|split].
  - intros [|[|c]] fds nm Hk Hn; cbn in *; try discriminate. injection Hn as <-. reflexivity.
  - intros [|[|c]] nm Hn; cbn in *; try discriminate; injection Hn as <-; reflexivity.
  - intros c k d left H. cbn in H. injection H as <-. exists (Text d). split; reflexivity.
  - split; [eapply us_ext; reflexivity|]. split; [vm_compute; repeat constructor; cbn; intuition discriminate|]. split; [vm_compute; reflexivity|]. split.
    + exists [], ($"a" ++ $".bin"). split; [reflexivity|]. split; [reflexivity|]. split; [repeat split; try discriminate; cbn; intros Hx; repeat destruct Hx as [Hx|Hx]; try discriminate; contradiction|].
      split; [intros [x Hx]; discriminate|]. split; [intros Hx; cbn in Hx; destruct Hx as [Hx|[]]; discriminate|reflexivity].
    + let x := eval vm_compute in (save mv_env 10 ex_opts ($"new") mv_after mv_world) in
      match x with (Ok (?o, ?j), ?w') => exists o, j, w';
        let y := eval vm_compute in (load mv_env 20 ex_opts ($"new") None None w') in
        match y with (Ok ?o2, ?w3) => exists o2, w3; let z := eval vm_compute in (view mv_env 20 20 o2 w3) in match z with (?r, ?w4) => exists r, w4 end end end.
      split; [vm_compute; reflexivity|]. split; [vm_compute; reflexivity|]. split; [vm_compute; reflexivity|]. discriminate.
Qed.

Print Assumptions C40_deleted_files_gone.
Print Assumptions C40_rest_is_kept.
Print Assumptions C40_deletes_exactly.
Print Assumptions C41_moved_item_lost.
