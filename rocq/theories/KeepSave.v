(** Saving a model that was loaded and changed, with or without deleted items: what [save] leaves and what a later run sees. *)
From Coq Require Import List Ascii String Bool Arith ZArith Lia.
From Verif Require Import Base PosixModel FsModel PathModel SerialModel StoreModel StoreFrame StoreMount StoreSpec StoreLocal StorePlace
     StoreRecord StoreSave StoreEvents StoreExample SerialSpec SerialProof RoundSpec KeepSpec RoundProof ReplayProof KeepProof PathSpec MountSpec DirSpec PosixProof FsProof DirProof TargetProof MountProof
     HistoryProof PathFacts PropsStore PropsRepo PropsRound.
Import ListNotations.

Local Arguments str_eq_dec : simpl never.
Local Arguments atom_eq_dec : simpl never.

(** The files of deleted items are gone, unless the same save wrote them. *)
Theorem saved_gone : forall E n p k o w o' j w' (U : list str -> list obj -> Prop) (Pev : event -> Prop) (R : list str -> list obj -> list str -> Prop),
  (forall l, Pev (EvWrite l)) -> (forall q, Pev (EvPrepare (List.length (w_mounts w)) q)) ->
  (forall comps u n cx w0 r w1, U comps u -> sctx (List.length (w_mounts w)) comps cx -> mnt_ok (List.length (w_mounts w)) (key_dir p k) w0 ->
     rm_all (depth E n) (Some cx) u w0 = (Ok r, w1) ->
     (exists evs, w_log w1 = evs ++ w_log w0 /\ Forall Pev evs) /\
     (s_clean E = true -> location (s_cwd E) (key_dir p k) = comps_cp (key_dir p k) ->
      forall q, R comps u q -> file_at (w_fs w1) (location (s_cwd E) (key_dir p k) ++ q) = None)) ->
  absolute (s_cwd E) -> absolute (o_base p) -> registered_classes E -> ordinary_uuids E -> faithful_methods E ->
  reads_determined E -> plain_defaults E ->
  s_retouch E = $"auto" \/ s_retouch E = $"quit" -> s_validate E = true ->
  plain k -> k <> $".gitignore" ->
  well_formed (w_fs w) -> holds_with U E w (key_dir p k) [] o -> save E n p k o w = (Ok (o', j), w') ->
  (forall ev, happened w w' ev -> Pev ev \/ ev = EvClose (List.length (w_mounts w))) /\
  (s_clean E = true -> forall q, deleted_with R E [] o q ->
     let l := location (s_cwd E) (key_dir p k) ++ q in ~ own_ignore E p k l -> file_at (w_fs w') l = None \/ happened w w' (EvWrite l)).
Proof.
  intros E n p k o w o' j w' U Pev R HPw HPp HU Hc Hb Hreg Huid Hfai Hdet Hdef Hret Hval Hk Hgi Hw Hbu H.
  assert (Hun : In (s_retouch E) unattended) by (destruct Hret as [-> | ->]; [left|right; left]; reflexivity).
  pose proof (save_inv_log E Hc Hun p k Hb n o w o' j w' [k]) as HS. cbn zeta in HS. cbn [removelast last app] in HS.
  destruct HS as (o1 & q & u & wa & wb & fs1 & fs2 & mt & Ho1 & Hg & Hoka & Hser & Hokb & Hf1 & Hf2 & Hmt & Hmt' & Hmd & Hclose & Hlog);
    [discriminate|constructor; [assumption|constructor]|reflexivity|assumption|assumption|].
  set (i := List.length (w_mounts w)) in *. set (D0 := key_dir p k) in *.
  assert (Hdir : absolute D0) by (apply key_dir_absolute; assumption).
  set (D := location (s_cwd E) D0) in *. set (l := D ++ [k ++ $".json"]) in *.
  set (E2 := mkSenv (s_class E) (s_ser E) (s_sto E) (s_write E) (s_read E) (s_uuid E) (s_float E) (s_cwd E) (s_retouch E) (s_validate E) (s_clean E) (s_suffix E) None).
  assert (Hsame : same_code E E2) by (repeat split).
  destruct (gave_claims E i D0 Hret q _ u [k ++ $".json"] [k ++ $".json"] wa Hg (opened_ok p k w Hw)) as (Gc & _ & _ & HD).
  assert (Hla : claimed E i D0 wa l) by (apply Gc; right; reflexivity).
  assert (Hbu1 : holds_with U E w D0 [] o1).
  { destruct Ho1 as [[-> _]|(-> & _)]; [assumption|]. unfold fresh_record. apply h_rec; [|apply auto_ordinary; assumption].
    intros sd [Hsd|[_ ->]]; [|exact Hbu]. cbn in Hsd. injection Hsd as <-. exact Hbu. }
  pose proof (ser_kept E E2 i D0 Hc Hdir Hret Hval Hreg Huid Hfai Hsame eq_refl Hdet Hdef w Hw (fun _ => False) 0 0 (le_n _) U Pev R HPw HPp (fun q0 => q0 = l) (w_log w) HU n o1 false [] (mkCtx i []) wa o' j wb Hbu1) as HSv.
  destruct HSv as ((Sx & _ & Si) & Sd & Sj & _ & SL); [discriminate|apply sctx_top|assumption|exact Hser|]. cbn iota in SL.
  assert (Hloga : w_log wa = EvPrepare i q :: w_log w).
  { destruct Hg as (mm & touched & fs' & _ & _ & _ & _ & _ & -> & _). reflexivity. }
  assert (Hst : m_gitignore mt = o_gitignore p /\ m_cluster mt = o_cluster p).
  { pose proof (on_ser E i D0 Hc Hdir Hun (fun _ => True) (fun _ _ => I) n (mkCtx i []) [] o1 (sctx_top i) wa Hoka) as Hons.
    rewrite Hser in Hons. destruct Hons as (_ & Hons & _). cbn [snd] in Hons.
    pose proof (statics_nth _ _ _ Hmt) as Hn. rewrite Hons in Hn. destruct Hg as (mm & touched & fs' & G1 & _ & _ & _ & _ & -> & _).
    unfold opened in G1. cbn [w_mounts] in G1. rewrite nth_error_app2, Nat.sub_diag in G1 by lia. injection G1 as <-.
    unfold statics in Hn. cbn [w_mounts] in Hn. rewrite nth_error_map, nth_set_nth in Hn. destruct (Nat.eq_dec i i); [|congruence].
    unfold opened in Hn. cbn [w_mounts] in Hn. rewrite nth_error_app2, Nat.sub_diag in Hn by (unfold i; lia). cbn in Hn. injection Hn as _ Hn1 Hn2. auto. }
  destruct Hst as [Hst1 Hst2].
  assert (Hwf2 : well_formed fs2) by (destruct Hokb as [_ Hwb]; exact (write_file_wf _ _ _ _ Hf2 (write_file_wf _ _ _ _ Hf1 Hwb))).
  assert (Hwf' : well_formed (w_fs w')) by (eapply mount_close_wf; eassumption).
  assert (Hf2l : forall q0, file_at fs2 q0 = if loc_eq_dec q0 l then Some (Json (to_json (s_float E) j)) else file_at (w_fs wb) q0).
  { intros q1. rewrite (write_file_lookup _ _ _ _ Hf2). destruct (loc_eq_dec q1 l); [reflexivity|].
    rewrite (write_file_lookup _ _ _ _ Hf1). destruct (loc_eq_dec q1 l); congruence. }
  split.
  { intros ev (e2 & He2 & Hx). destruct Sx as (evs & Hl1 & Hpv & _). rewrite Hlog, Hl1, Hloga in He2.
    assert (He3 : (EvClose i :: EvWrite l :: EvWrite l :: evs ++ [EvPrepare i q]) ++ w_log w = e2 ++ w_log w) by (rewrite <- He2; cbn [app]; rewrite <- app_assoc; reflexivity).
    apply app_inv_tail in He3. subst e2. destruct Hx as [<-|[<-|[<-|Hx]]]; [right; reflexivity|left; apply HPw|left; apply HPw|].
    apply in_app_or in Hx as [Hx|[<-|[]]]; [|left; apply HPp]. left. rewrite Forall_forall in Hpv. auto. }
  intros Hcq q0 Hdq. cbn zeta. intros Hcl.
  assert (Hdq1 : deleted_with R E [] o1 q0).
    { destruct Ho1 as [[-> _]|(-> & _)]; [assumption|]. unfold fresh_record. constructor. exact Hdq. }
    destruct Sx as (evs & Hl1 & _). assert (Hl2 : w_log w' = (EvClose i :: EvWrite l :: EvWrite l :: evs ++ [EvPrepare i q]) ++ w_log w).
    { rewrite Hlog, Hl1, Hloga. cbn [app]. rewrite <- app_assoc. reflexivity. }
    destruct (loc_eq_dec (D ++ q0) l) as [Hql|Hql]; [right; rewrite Hql; eexists; split; [exact Hl2|right; left; reflexivity]|].
    destruct (Sd Hcq HD q0 Hdq1) as [Hn|(e2 & He2 & Hx)].
    - left. fold D. rewrite (close_away _ _ _ _ Hc Hwf2 Hclose) by (intros Hgt Hx; rewrite Hmd, Hst2 in Hx; apply own_ignore_loc in Hx; try assumption; [contradiction|congruence]).
      rewrite Hf2l. destruct (loc_eq_dec (D ++ q0) l); [contradiction|exact Hn].
    - right. exists (EvClose i :: EvWrite l :: EvWrite l :: evs ++ [EvPrepare i q]). split; [exact Hl2|]. rewrite Hl1 in He2. apply app_inv_tail in He2. subst e2.
      right. right. right. apply in_or_app. left. exact Hx.
Qed.

(** What a later run sees depends on the files this save wrote, on those the model still waits in, and on the .gitignore
    around the key. *)
Theorem files_kept_listed : forall E E2 n m K M p k o w t wv o' j w' w2 (U : list str -> list obj -> Prop) (Pev : event -> Prop) (R : list str -> list obj -> list str -> Prop),
  (forall l, Pev (EvWrite l)) -> (forall q, Pev (EvPrepare (List.length (w_mounts w)) q)) ->
  (forall comps u n cx w0 r w1, U comps u -> sctx (List.length (w_mounts w)) comps cx -> mnt_ok (List.length (w_mounts w)) (key_dir p k) w0 ->
     rm_all (depth E n) (Some cx) u w0 = (Ok r, w1) ->
     (exists evs, w_log w1 = evs ++ w_log w0 /\ Forall Pev evs) /\
     (s_clean E = true -> location (s_cwd E) (key_dir p k) = comps_cp (key_dir p k) ->
      forall q, R comps u q -> file_at (w_fs w1) (location (s_cwd E) (key_dir p k) ++ q) = None)) ->
  absolute (s_cwd E) -> absolute (o_base p) -> same_code E E2 -> registered_classes E -> ordinary_uuids E -> faithful_methods E ->
  reads_determined E -> plain_defaults E ->
  s_limit E2 = None -> s_retouch E = $"auto" \/ s_retouch E = $"quit" -> s_validate E = true ->
  plain k -> k <> $".gitignore" ->
  well_formed (w_fs w) -> holds_with U E w (key_dir p k) [] o -> view E K M o w = (Ok t, wv) -> n + Nat.max K M < m ->
  save E n p k o w = (Ok (o', j), w') ->
  (forall i q, Pev (EvRemove i q) -> let l := requested (s_cwd E) (key_dir p k) q in l <> location (s_cwd E) (key_dir p k) ++ [k ++ $".json"] /\ ~ happened w w' (EvWrite l)) \/
    spares_new E (key_dir p k) (location (s_cwd E) (key_dir p k) ++ [k ++ $".json"]) w w' ->
  (forall l, happened w wv (EvRead l) -> file_at (w_fs w') l = file_at (w_fs w) l) ->
  (forall l, own_ignore E p k l -> ~ happened w w' (EvWrite l) /\ ~ happened w wv (EvRead l)) ->
  well_formed (w_fs w2) -> (forall l, inside l (location (s_cwd E) (key_dir p k)) -> happened w w' (EvWrite l) \/ happened w wv (EvRead l) -> file_at (w_fs w2) l = file_at (w_fs w') l) ->
  (o_gitignore p = true -> let G := ignore_loc (s_cwd E) (o_cluster p) (key_dir p k) in forall s, file_at (w_fs w') G = Some (Text s) -> exists s', file_at (w_fs w2) G = Some (Text s')) ->
  (exists c, file_at (w_fs w') (location (s_cwd E) (key_dir p k) ++ [k ++ $".json"]) = Some c) /\
  (o_gitignore p = true -> o_cluster p = true -> one_line k -> exists s, file_at (w_fs w') (ignore_loc (s_cwd E) (o_cluster p) (key_dir p k)) = Some (Text s) /\ In k (splitlines s)) /\
  exists o2 w3 w4, load E2 m p k None None w2 = (Ok o2, w3) /\ view E2 m m o2 w3 = (Ok t, w4).
Proof.
  intros E E2 n m K M p k o w t wv o' j w' w2 U Pev R HPw HPp HU Hc Hb Hsame Hreg Huid Hfai Hdet Hdef Hlim Hret Hval Hk Hgi Hw Hbu Hview Hnm H Hrm Hint Hcl Hwf2' Hw2 HwG. cbn zeta in HwG.
  assert (Hun : In (s_retouch E) unattended) by (destruct Hret as [-> | ->]; [left|right; left]; reflexivity).
  pose proof (save_inv_log E Hc Hun p k Hb n o w o' j w' [k]) as HS. cbn zeta in HS. cbn [removelast last app] in HS.
  destruct HS as (o1 & q & u & wa & wb & fs1 & fs2 & mt & Ho1 & Hg & Hoka & Hser & Hokb & Hf1 & Hf2 & Hmt & Hmt' & Hmd & Hclose & Hlog);
    [discriminate|constructor; [assumption|constructor]|reflexivity|assumption|assumption|].
  set (i := List.length (w_mounts w)) in *. set (D0 := key_dir p k) in *.
  assert (Hdir : absolute D0) by (apply key_dir_absolute; assumption).
  set (D := location (s_cwd E) D0) in *. set (l := D ++ [k ++ $".json"]) in *.
  assert (Hcwd2 : s_cwd E2 = s_cwd E) by apply Hsame.
  destruct (gave_claims E i D0 Hret q _ u [k ++ $".json"] [k ++ $".json"] wa Hg (opened_ok p k w Hw)) as (Gc & _ & _ & HD).
  assert (Hla : claimed E i D0 wa l) by (apply Gc; right; reflexivity).
  assert (Hbu1 : holds_with U E w D0 [] o1).
  { destruct Ho1 as [[-> _]|(-> & _)]; [assumption|]. unfold fresh_record. apply h_rec; [|apply auto_ordinary; assumption].
    intros sd [Hsd|[_ ->]]; [|exact Hbu]. cbn in Hsd. injection Hsd as <-. exact Hbu. }
  set (G := fun l0 => happened w wv (EvRead l0)).
  pose proof (ser_kept E E2 i D0 Hc Hdir Hret Hval Hreg Huid Hfai Hsame Hlim Hdet Hdef w Hw G K (Nat.max K M) (Nat.le_max_l _ _) U Pev R HPw HPp (fun q0 => q0 = l) (w_log w) HU n o1 false [] (mkCtx i []) wa o' j wb Hbu1) as HSv.
  destruct HSv as ((Sx & _ & Si) & Sd & Sj & _ & SL); [discriminate|apply sctx_top|assumption|exact Hser|]. cbn iota in SL.
  assert (Hloga : w_log wa = EvPrepare i q :: w_log w).
  { destruct Hg as (mm & touched & fs' & _ & _ & _ & _ & _ & -> & _). reflexivity. }
  assert (Hcln : KeepProof.clean E i D0 (fun q0 => q0 = l) (w_log w) wa wb).
  { intros a0 p0 b0 Hl0 [c0 Hc0]. destruct Hrm as [Hno|Hsp].
    - destruct Sx as (evs & Hl1 & Hp1 & _). rewrite Hl1 in Hl0. rewrite Hc0 in Hl0.
      change (a0 ++ EvRemove i p0 :: c0 ++ w_log wa) with (a0 ++ (EvRemove i p0 :: c0) ++ w_log wa) in Hl0. rewrite app_assoc in Hl0. apply app_inv_tail in Hl0. subst evs.
      rewrite Forall_forall in Hp1. destruct (Hno i p0) as [Q1 Q2]; [apply Hp1, in_or_app; right; left; reflexivity|].
      intros [Hx|(e2 & He2 & Hx)]; [contradiction|]. apply Q2.
      exists (EvClose i :: EvWrite l :: EvWrite l :: a0 ++ EvRemove i p0 :: e2). split.
      + rewrite Hlog, Hl1. cbn [app]. do 3 f_equal. rewrite <- app_assoc. cbn [app]. rewrite <- app_assoc. cbn [app]. do 2 f_equal. rewrite <- Hc0, He2. reflexivity.
      + do 3 right. apply in_or_app. right. right. exact Hx.
    - destruct (Hsp (EvClose i :: EvWrite l :: EvWrite l :: a0) i p0 (c0 ++ [EvPrepare i q])) as [Q1 Q2].
      { rewrite Hlog, Hl0, Hc0, Hloga, <- app_assoc. reflexivity. }
      intros [Hx|(e2 & He2 & Hx)]; [contradiction|]. apply Q2. rewrite Hc0, Hloga in He2.
      change (EvPrepare i q :: w_log w) with ([EvPrepare i q] ++ w_log w) in He2. rewrite app_assoc in He2. apply app_inv_tail in He2. rewrite He2. exact Hx. }
  assert (Hinv : KeepProof.Inv E i D0 (fun q0 => q0 = l) (w_log w) wa).
  { split; [exists [EvPrepare i q]; exact Hloga|]. intros q0 [->|(e2 & He2 & Hx)]; [exact Hla|]. rewrite Hloga in He2.
    change (EvPrepare i q :: w_log w) with ([EvPrepare i q] ++ w_log w) in He2. apply app_inv_tail in He2. subst e2. destruct Hx as [Hx|[]]. discriminate. }
  destruct (Si Hcln Hinv) as [Hinvb _].
  assert (Hseen : Seen E w G K (Nat.max K M) o1 t).
  { exists M, w, wv. split; [apply Nat.le_max_r|]. split; [apply calm_rel_refl|]. split; [|intros l0 H0; exact H0].
    destruct Ho1 as [[-> _]|(-> & _ & Hsto)]; [assumption|]. unfold fresh_record. rewrite view_rec by assumption. assumption. }
  specialize (SL Hcln Hinv t Hseen).
  set (g := known E D0 w G (fun q0 => q0 = l) (w_log w) wa wb) in *.
  assert (Hst : m_gitignore mt = o_gitignore p /\ m_cluster mt = o_cluster p).
  { pose proof (on_ser E i D0 Hc Hdir Hun (fun _ => True) (fun _ _ => I) n (mkCtx i []) [] o1 (sctx_top i) wa Hoka) as Hons.
    rewrite Hser in Hons. destruct Hons as (_ & Hons & _). cbn [snd] in Hons.
    pose proof (statics_nth _ _ _ Hmt) as Hn. rewrite Hons in Hn. destruct Hg as (mm & touched & fs' & G1 & _ & _ & _ & _ & -> & _).
    unfold opened in G1. cbn [w_mounts] in G1. rewrite nth_error_app2, Nat.sub_diag in G1 by lia. injection G1 as <-.
    unfold statics in Hn. cbn [w_mounts] in Hn. rewrite nth_error_map, nth_set_nth in Hn. destruct (Nat.eq_dec i i); [|congruence].
    unfold opened in Hn. cbn [w_mounts] in Hn. rewrite nth_error_app2, Nat.sub_diag in Hn by (unfold i; lia). cbn in Hn. injection Hn as _ Hn1 Hn2. auto. }
  destruct Hst as [Hst1 Hst2].
  assert (Hwf2 : well_formed fs2) by (destruct Hokb as [_ Hwb]; exact (write_file_wf _ _ _ _ Hf2 (write_file_wf _ _ _ _ Hf1 Hwb))).
  assert (Hwf' : well_formed (w_fs w')) by (eapply mount_close_wf; eassumption).
  assert (Hne : forall r, o_gitignore p = true -> happened w w' (EvWrite (D ++ r)) \/ happened w wv (EvRead (D ++ r)) -> D ++ r <> ignore_loc (s_cwd E) (o_cluster p) D0).
  { intros r Hgt Hh Hx. apply own_ignore_loc in Hx; try assumption. destruct (Hcl _ Hx). tauto. }
  assert (Hdw : forall l0, KeepProof.done (fun q0 => q0 = l) (w_log w) wb l0 -> happened w w' (EvWrite l0)).
  { intros l0 [->|(e2 & He2 & Hx)].
    - destruct (proj1 Hinvb) as [e He]. exists (EvClose i :: EvWrite l :: EvWrite l :: e). split; [rewrite Hlog, He; reflexivity|right; left; reflexivity].
    - exists (EvClose i :: EvWrite l :: EvWrite l :: e2). split; [rewrite Hlog, He2; reflexivity|do 3 right; exact Hx]. }
  assert (Hwl : happened w w' (EvWrite l)) by (apply Hdw; left; reflexivity).
  assert (Hgin : forall l0 c0, g l0 c0 -> exists r, l0 = D ++ r /\ (happened w w' (EvWrite (D ++ r)) \/ happened w wv (EvRead (D ++ r)))).
  { intros l0 c0 [([r Hr] & Hread & _)|[Hd _]]; [exists r; split; [exact Hr|right; rewrite Hr in Hread; exact Hread]|]. pose proof (Hdw _ Hd) as Hh.
    destruct (proj2 Hinvb _ Hd) as (m1 & u1 & r1 & _ & _ & _ & ->). eauto. }
  assert (Hf2l : forall q0, file_at fs2 q0 = if loc_eq_dec q0 l then Some (Json (to_json (s_float E) j)) else file_at (w_fs wb) q0).
  { intros q0. rewrite (write_file_lookup _ _ _ _ Hf2). destruct (loc_eq_dec q0 l); [reflexivity|].
    rewrite (write_file_lookup _ _ _ _ Hf1). destruct (loc_eq_dec q0 l); congruence. }
  assert (Hlj : file_at (w_fs w') l = Some (Json (to_json (s_float E) j))).
  { rewrite (close_away _ _ _ _ Hc Hwf2 Hclose) by (intros Hgt; rewrite Hmd, Hst2; apply Hne; [congruence|left; exact Hwl]).
    rewrite Hf2l. destruct (loc_eq_dec l l); congruence. }
  assert (Hgw : forall l0 c0, g l0 c0 -> file_at (w_fs w') l0 = Some c0).
  { intros l0 c0 [(_ & C1 & C2)|(C1 & C2 & C3)]; [rewrite Hint by exact C1; exact C2|]. rewrite (close_away _ _ _ _ Hc Hwf2 Hclose).
    - rewrite Hf2l. destruct (loc_eq_dec l0 l) as [->|_]; [exfalso; apply C2; left; reflexivity|assumption].
    - intros Hgt. rewrite Hmd, Hst2. pose proof (Hdw _ C1) as Hh. destruct (proj2 Hinvb _ C1) as (m1 & u1 & r1 & _ & _ & _ & ->). apply Hne; [congruence|left; exact Hh]. }
  assert (Hign0 : m_gitignore mt = true -> exists s, file_at (w_fs w') (ignore_loc (s_cwd E) (o_cluster p) D0) = Some (Text s) /\
      (o_cluster p = true -> one_line k -> In k (splitlines s))).
  { intros Hgt. destruct (proj2 Hinvb l (or_introl eq_refl)) as (m1 & u1 & r1 & C1 & C2 & C3 & C4). rewrite Hmt in C1. injection C1 as <-.
    pose proof C3 as (_ & _ & C5 & _). rewrite <- Hmd, <- Hst2.
    cut (exists s, file_at (w_fs w') (ignore_loc (s_cwd E) (m_cluster mt) (m_dir mt)) = Some (Text s) /\
      (let n0 := if m_cluster mt then snd (path_split (m_dir mt)) else relstr r1 in one_line n0 -> n0 <> [] -> In n0 (splitlines s))).
    { intros (s & Hs & Hs'). exists s. split; [exact Hs|]. intros Hcl1 Hone. cbn zeta in Hs'. rewrite Hcl1, Hmd in Hs'. rewrite Hst2 in Hcl1. unfold D0 in Hs'. rewrite key_split in Hs' by assumption.
      apply Hs'; [exact Hone|apply Hk]. }
    apply (close_leaves (s_cwd E) fs2 mt (w_fs w') u1 (relstr r1)); try assumption.
    - rewrite Hmd, Hst2. destruct (o_cluster p) eqn:Ec; [unfold D0; rewrite key_split; assumption|].
      assert (Hr1 : r1 = [k ++ $".json"]) by (symmetry; eapply app_inv_head; exact C4). rewrite Hr1. apply json_not_ignore.
    - exists (Json (to_json (s_float E) j)). destruct (rel_target_location (s_cwd E) D0 u1 r1 (relstr r1) Hdir C3 C5) as (_ & Hrl & _).
      assert (Hol : os_loc (s_cwd E) (join2 (m_dir mt) (relstr r1)) = l) by (rewrite os_loc_location, Hmd, Hrl by assumption; symmetry; exact C4).
      rewrite Hol, Hf2l. destruct (loc_eq_dec l l); congruence. }
  assert (Hign : m_gitignore mt = true -> exists s, file_at (w_fs w') (ignore_loc (s_cwd E) (o_cluster p) D0) = Some (Text s)).
  { intros Hgt. destruct (Hign0 Hgt) as (s & Hs & _). eauto. }
  split; [eauto|]. split; [intros Hgt Hcl1 Hone; destruct (Hign0 ltac:(congruence)) as (s & Hs & Hs'); exists s; auto|].
  set (i2 := List.length (w_mounts w2)).
  set (w1 := opened p k w2).
  assert (Hjat : json_at E2 p k = l).
  { rewrite (json_at_slash E2 p k [k]); [|reflexivity|discriminate|constructor; [assumption|constructor]]. rewrite Hcwd2. reflexivity. }
  assert (Hlk : lookup (w_fs w2) l = Some (File (Json (to_json (s_float E) j)))).
  { rewrite <- Hw2 in Hlj by first [eexists; reflexivity|left; exact Hwl]. unfold file_at in Hlj. destruct (lookup (w_fs w2) l) as [[|]|]; congruence. }
  set (wl := logged (EvRead l) (logged (EvStat l) w1)).
  assert (Hok1 : mnt_ok i2 D0 wl).
  { apply (opened_ok p k w2). assumption. }
  assert (Hgw2 : forall l0 c0, g l0 c0 -> file_at (w_fs w2) l0 = Some c0).
  { intros l0 c0 H0. destruct (Hgin _ _ H0) as (r1 & Hr1 & Hh). rewrite Hw2 by first [exists r1; exact Hr1|rewrite Hr1; exact Hh]. auto. }
  destruct (SL m i2 (mkCtx i2 []) wl) as (o2 & wd & L1 & L2 & L3 & _); [lia|apply sctx_top|assumption| |].
  { intros l0 c0 H0. cbn. auto. }
  pose proof (de_statics _ _ _ _ _ _ _ _ L1) as Hsd.
  destruct L2 as [L2 L2'].
  assert (Hokd : mnt_ok i2 D0 wd) by (apply L2'; assumption).
  pose proof Hokd as [(md & Hmd1 & Hmd2 & Hmd3) Hwfd].
  assert (Hsm : m_gitignore md = o_gitignore p /\ m_cluster md = o_cluster p).
  { pose proof (statics_nth _ _ _ Hmd1) as Hn. rewrite Hsd in Hn. unfold statics, wl, w1, opened in Hn. cbn [logged w_mounts] in Hn.
    rewrite nth_error_map, nth_error_app2, Nat.sub_diag in Hn by (unfold i2; lia). cbn in Hn. injection Hn as _ Hn1 Hn2. auto. }
  destruct Hsm as [Hsm1 Hsm2].
  assert (Hcd : exists fs3, mount_close (s_cwd E2) (w_fs wd) md = Ok fs3).
  { rewrite Hcwd2. destruct (m_gitignore mt) eqn:Egt.
    - destruct (Hign eq_refl) as [s0 Hs0]. destruct (HwG ltac:(congruence) s0 Hs0) as [s Hs]. apply (close_again _ _ _ s); try assumption. intros _. rewrite Hmd2, Hsm2, L2. exact Hs.
    - apply (close_again _ _ _ []); try assumption. intros Hx. congruence. }
  destruct Hcd as [fs3 Hcd].
  set (w3 := mkWorld fs3 (w_mounts wd) (w_inputs wd) (w_uuid wd) (EvClose i2 :: w_log wd)).
  assert (Hok3 : mnt_ok i2 D0 w3).
  { split; [exists md; auto|]. eapply mount_close_wf; eassumption. }
  assert (Hg3 : has g w3).
  { intros l0 c0 H0. cbn. rewrite (close_away _ _ _ _ (eq_ind_r absolute Hc Hcwd2) Hwfd Hcd).
    - rewrite L2. cbn. auto.
    - intros Hgt. rewrite Hmd2, Hsm2, Hcwd2. destruct (Hgin _ _ H0) as (r1 & -> & Hh). apply Hne; [congruence|exact Hh]. }
  destruct (L3 m m w3) as (w4 & V1 & _); [lia|lia|assumption|assumption|].
  exists o2, w3, w4. split; [|exact V1].
  rewrite load_eq by (rewrite Hcwd2; assumption). cbn zeta. fold i2. rewrite Hjat. change (mkWorld _ _ _ _ _) with w1.
  rewrite mbind_run. unfold m_exists. rewrite op_free by assumption. cbn [logged w_fs].
  assert (Hex : exists_at (w_fs w1) l = true) by (unfold exists_at; change (w_fs w1) with (w_fs w2); rewrite Hlk; reflexivity).
  rewrite Hex. rewrite mbind_run, mbind_run. unfold m_read. rewrite op_free by assumption. cbn [logged w_fs].
  change (w_fs w1) with (w_fs w2). rewrite Hlk.
  change (of_json (to_json (s_float E) j)) with (through_json (s_float E) j). rewrite through_json_ready by assumption.
  match goal with |- context [deserialize E2 m (Some (mkCtx i2 [])) j ?x] => change x with wl end. unfold deserialize. rewrite L1. rewrite mbind_run. unfold close_context. rewrite op_free by assumption.
  cbn [logged c_mnt w_mounts w_fs]. rewrite Hmd1, Hcd. reflexivity.
Qed.
Theorem files_kept : forall E E2 n m K M p k o w t wv o' j w' w2 (U : list str -> list obj -> Prop) (Pev : event -> Prop) (R : list str -> list obj -> list str -> Prop),
  (forall l, Pev (EvWrite l)) -> (forall q, Pev (EvPrepare (List.length (w_mounts w)) q)) ->
  (forall comps u n cx w0 r w1, U comps u -> sctx (List.length (w_mounts w)) comps cx -> mnt_ok (List.length (w_mounts w)) (key_dir p k) w0 ->
     rm_all (depth E n) (Some cx) u w0 = (Ok r, w1) ->
     (exists evs, w_log w1 = evs ++ w_log w0 /\ Forall Pev evs) /\
     (s_clean E = true -> location (s_cwd E) (key_dir p k) = comps_cp (key_dir p k) ->
      forall q, R comps u q -> file_at (w_fs w1) (location (s_cwd E) (key_dir p k) ++ q) = None)) ->
  absolute (s_cwd E) -> absolute (o_base p) -> same_code E E2 -> registered_classes E -> ordinary_uuids E -> faithful_methods E ->
  reads_determined E -> plain_defaults E ->
  s_limit E2 = None -> s_retouch E = $"auto" \/ s_retouch E = $"quit" -> s_validate E = true ->
  plain k -> k <> $".gitignore" ->
  well_formed (w_fs w) -> holds_with U E w (key_dir p k) [] o -> view E K M o w = (Ok t, wv) -> n + Nat.max K M < m ->
  save E n p k o w = (Ok (o', j), w') ->
  (forall i q, Pev (EvRemove i q) -> let l := requested (s_cwd E) (key_dir p k) q in l <> location (s_cwd E) (key_dir p k) ++ [k ++ $".json"] /\ ~ happened w w' (EvWrite l)) \/
    spares_new E (key_dir p k) (location (s_cwd E) (key_dir p k) ++ [k ++ $".json"]) w w' ->
  (forall l, happened w wv (EvRead l) -> file_at (w_fs w') l = file_at (w_fs w) l) ->
  (forall l, own_ignore E p k l -> ~ happened w w' (EvWrite l) /\ ~ happened w wv (EvRead l)) ->
  well_formed (w_fs w2) -> (forall l, inside l (location (s_cwd E) (key_dir p k)) -> happened w w' (EvWrite l) \/ happened w wv (EvRead l) -> file_at (w_fs w2) l = file_at (w_fs w') l) ->
  (o_gitignore p = true -> let G := ignore_loc (s_cwd E) (o_cluster p) (key_dir p k) in forall s, file_at (w_fs w') G = Some (Text s) -> exists s', file_at (w_fs w2) G = Some (Text s')) ->
  exists o2 w3 w4, load E2 m p k None None w2 = (Ok o2, w3) /\ view E2 m m o2 w3 = (Ok t, w4).
Proof.
  intros E E2 n m K M p k o w t wv o' j w' w2 U Pev R H1 H2 H3 H4 H5 H6 H7 H8 H9 H10 H11 H12 H13 H14 H15 H16 H17 H18 H19 H20 H21 H22 H23 H24 H25 H26 H27.
  eapply (files_kept_listed E E2 n m K M p k o w t wv o' j w' w2 U Pev R); eassumption.
Qed.
Theorem saved_kept : forall E E2 n m K M p k o w t wv o' j w' w2 (U : list str -> list obj -> Prop) (Pev : event -> Prop) (R : list str -> list obj -> list str -> Prop),
  (forall l, Pev (EvWrite l)) -> (forall q, Pev (EvPrepare (List.length (w_mounts w)) q)) ->
  (forall comps u n cx w0 r w1, U comps u -> sctx (List.length (w_mounts w)) comps cx -> mnt_ok (List.length (w_mounts w)) (key_dir p k) w0 ->
     rm_all (depth E n) (Some cx) u w0 = (Ok r, w1) ->
     (exists evs, w_log w1 = evs ++ w_log w0 /\ Forall Pev evs) /\
     (s_clean E = true -> location (s_cwd E) (key_dir p k) = comps_cp (key_dir p k) ->
      forall q, R comps u q -> file_at (w_fs w1) (location (s_cwd E) (key_dir p k) ++ q) = None)) ->
  absolute (s_cwd E) -> absolute (o_base p) -> same_code E E2 -> registered_classes E -> ordinary_uuids E -> faithful_methods E ->
  reads_determined E -> plain_defaults E ->
  s_limit E2 = None -> s_retouch E = $"auto" \/ s_retouch E = $"quit" -> s_validate E = true ->
  plain k -> k <> $".gitignore" ->
  well_formed (w_fs w) -> holds_with U E w (key_dir p k) [] o -> view E K M o w = (Ok t, wv) -> n + Nat.max K M < m ->
  save E n p k o w = (Ok (o', j), w') ->
  (forall i q, Pev (EvRemove i q) -> let l := requested (s_cwd E) (key_dir p k) q in l <> location (s_cwd E) (key_dir p k) ++ [k ++ $".json"] /\ ~ happened w w' (EvWrite l)) \/
    spares_new E (key_dir p k) (location (s_cwd E) (key_dir p k) ++ [k ++ $".json"]) w w' ->
  (forall l, happened w wv (EvRead l) -> file_at (w_fs w') l = file_at (w_fs w) l) ->
  (forall l, own_ignore E p k l -> ~ happened w w' (EvWrite l) /\ ~ happened w wv (EvRead l)) ->
  w_fs w2 = w_fs w' ->
  exists o2 w3 w4, load E2 m p k None None w2 = (Ok o2, w3) /\ view E2 m m o2 w3 = (Ok t, w4).
Proof.
  intros E E2 n m K M p k o w t wv o' j w' w2 U Pev R HPw HPp HU Hc Hb Hsame Hreg Huid Hfai Hdet Hdef Hlim Hret Hval Hk Hgi Hw Hbu Hview Hnm H Hrm Hint Hcl Hw2.
  eapply (files_kept E E2 n m K M p k o w t wv o' j w' w2 U Pev R); try eassumption; [|intros l _ _; rewrite Hw2; reflexivity|intros _; cbn zeta; rewrite Hw2; eauto].
  rewrite Hw2. pose proof (save_traced E Hc n p k o w Hw) as (new & _ & _ & Hx & _). rewrite H in Hx. apply Hx. exact Hw.
Qed.
