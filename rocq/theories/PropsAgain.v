(** Saving again what was just saved: C78. *)
From Coq Require Import List Ascii String Bool Arith ZArith Lia.
From Verif Require Import Base PosixModel FsModel PathModel SerialModel StoreModel StoreFrame StoreMount StoreSpec StoreLocal StorePlace
     StoreRecord StoreSave StoreExample SerialSpec SerialProof RoundSpec KeepSpec SameSpec AgainSpec RoundProof ReplayProof CleanProof DropProof DropSettled KeepProof SameProof AgainProof ContextProof KeepSave PathSpec MountSpec DirSpec
     PosixProof FsProof DirProof TargetProof MountProof HistoryProof PathFacts PropsStore PropsRound PropsKeep PropsDelete PropsCrash PropsPile.
Import ListNotations.

Local Arguments str_eq_dec : simpl never.
Local Arguments atom_eq_dec : simpl never.

(** ** One save *)
Lemma same_code_refl E : same_code E E. Proof. repeat split. Qed.
Lemma save_around_any E p k n o w o' j w' :
  absolute (s_cwd E) -> absolute (o_base p) -> s_retouch E = $"auto" \/ s_retouch E = $"quit" -> plain k -> k <> $".gitignore" ->
  well_formed (w_fs w) -> save E n p k o w = (Ok (o', j), w') ->
  let i := List.length (w_mounts w) in let D0 := key_dir p k in let D := location (s_cwd E) D0 in let l := D ++ [k ++ $".json"] in
  exists o1 wa wb, (o1 = o /\ is_serializable E o = true \/ o1 = fresh_record o /\ is_serializable E o = false /\ is_storable E o = true) /\
    serialize E n (Some (mkCtx i [])) o1 wa = (Ok (o', j), wb) /\ mnt_ok i D0 wa /\ mnt_ok i D0 wb /\ w_uuid wa = w_uuid w /\ w_uuid w' = w_uuid wb /\
    (forall q, claimed E i D0 wa q <-> q = l) /\ (forall q, file_at (w_fs wa) q = file_at (w_fs w) q) /\
    (forall q, ~ own_ignore E p k (D ++ q) -> file_at (w_fs w') (D ++ q) = if loc_eq_dec (D ++ q) l then Some (Json (to_json (s_float E) j)) else file_at (w_fs wb) (D ++ q)) /\
    exists q0, forall evs, w_log wb = evs ++ w_log wa -> w_log w' = (EvClose i :: EvWrite l :: EvWrite l :: evs ++ [EvPrepare i q0]) ++ w_log w.
Proof.
  intros Hc Hb Hret Hk Hgi Hw H i D0 D l.
  assert (Hun : In (s_retouch E) unattended) by (destruct Hret as [-> | ->]; [left|right; left]; reflexivity).
  pose proof (save_inv_uuid E Hc Hun p k Hb n o w o' j w' [k]) as HS. cbn zeta in HS. cbn [removelast last app] in HS.
  destruct HS as (o1 & q0 & u & wa & wb & fs1 & fs2 & mt & Ho1 & Hg & Hoka & Hser & Hokb & Hf1 & Hf2 & Hmt & Hmt' & Hmd & Hclose & Hlog & Huu);
    [discriminate|constructor; [assumption|constructor]|reflexivity|assumption|assumption|].
  fold i in Hg, Hoka, Hser, Hokb, Hmt, Hmt'. fold D0 in Hg, Hoka, Hokb, Hmd, Hf1, Hf2. fold D in Hf1, Hf2. fold l in Hf1, Hf2.
  assert (Hdir : absolute D0) by (apply key_dir_absolute; assumption).
  assert (Hst : m_gitignore mt = o_gitignore p /\ m_cluster mt = o_cluster p).
  { pose proof (on_ser E i D0 Hc Hdir Hun (fun _ => True) (fun _ _ => I) n (mkCtx i []) [] o1 (sctx_top i) wa Hoka) as Hons.
    rewrite Hser in Hons. destruct Hons as (_ & Hons & _). cbn [snd] in Hons.
    pose proof (statics_nth _ _ _ Hmt) as Hn. rewrite Hons in Hn. destruct Hg as (mm & touched & fs' & G1 & _ & _ & _ & _ & -> & _).
    unfold opened in G1. cbn [w_mounts] in G1. rewrite nth_error_app2, Nat.sub_diag in G1 by lia. injection G1 as <-.
    unfold statics in Hn. cbn [w_mounts] in Hn. rewrite nth_error_map, nth_set_nth in Hn. destruct (Nat.eq_dec i i); [|congruence].
    unfold opened in Hn. cbn [w_mounts] in Hn. rewrite nth_error_app2, Nat.sub_diag in Hn by (unfold i; lia). cbn in Hn. injection Hn as _ Hn1 Hn2. auto. }
  destruct Hst as [Hst1 Hst2].
  destruct (gave_claims E i D0 Hret q0 _ u [k ++ $".json"] [k ++ $".json"] wa Hg (opened_ok p k w Hw)) as (Gc & _ & Gf & _).
  exists o1, wa, wb. split; [exact Ho1|]. split; [exact Hser|]. split; [assumption|]. split; [assumption|].
  split; [destruct Hg as (mm & touched & fs' & _ & _ & _ & _ & _ & -> & _); reflexivity|]. split; [assumption|]. split; [|split; [|split]].
  - intros q. rewrite Gc. split; [|auto]. intros [(m & v & r & Hm & Hv & _)|Hx]; [|exact Hx]. exfalso. unfold opened in Hm. cbn [w_mounts] in Hm.
    rewrite nth_error_app2, Nat.sub_diag in Hm by (unfold i; lia). cbn in Hm. injection Hm as <-. destruct Hv.
  - intros q. rewrite Gf. reflexivity.
  - intros q Hq. assert (Hwf2 : well_formed fs2) by (destruct Hokb as [_ Hwb]; exact (write_file_wf _ _ _ _ Hf2 (write_file_wf _ _ _ _ Hf1 Hwb))).
    rewrite (close_away _ _ _ _ Hc Hwf2 Hclose) by (intros Hgt Hx; rewrite Hmd, Hst2 in Hx; apply own_ignore_loc in Hx; try assumption; [contradiction|congruence]).
    rewrite (write_file_lookup _ _ _ _ Hf2). destruct (loc_eq_dec (D ++ q) l); [reflexivity|]. rewrite (write_file_lookup _ _ _ _ Hf1). destruct (loc_eq_dec (D ++ q) l); [contradiction|reflexivity].
  - assert (Hla : w_log wa = EvPrepare i q0 :: w_log w) by (destruct Hg as (mm & touched & fs' & _ & _ & _ & _ & _ & -> & _); reflexivity).
    exists q0. intros evs Q1. rewrite Hlog, Q1, Hla. cbn [app]. rewrite <- app_assoc. reflexivity.
Qed.

Lemma save_around E p k n o w o' j w' :
  absolute (s_cwd E) -> absolute (o_base p) -> s_retouch E = $"auto" \/ s_retouch E = $"quit" -> plain k -> k <> $".gitignore" ->
  well_formed (w_fs w) -> is_serializable E o = true -> save E n p k o w = (Ok (o', j), w') ->
  let i := List.length (w_mounts w) in let D0 := key_dir p k in let D := location (s_cwd E) D0 in let l := D ++ [k ++ $".json"] in
  exists wa wb, serialize E n (Some (mkCtx i [])) o wa = (Ok (o', j), wb) /\ mnt_ok i D0 wa /\ mnt_ok i D0 wb /\ w_uuid wa = w_uuid w /\ w_uuid w' = w_uuid wb /\
    (forall q, claimed E i D0 wa q <-> q = l) /\ (forall q, file_at (w_fs wa) q = file_at (w_fs w) q) /\
    forall q, ~ own_ignore E p k (D ++ q) -> file_at (w_fs w') (D ++ q) = if loc_eq_dec (D ++ q) l then Some (Json (to_json (s_float E) j)) else file_at (w_fs wb) (D ++ q).
Proof.
  intros Hc Hb Hret Hk Hgi Hw Hse H i D0 D l. destruct (save_around_any E p k n o w o' j w' Hc Hb Hret Hk Hgi Hw H) as (o1 & wa & wb & Ho & H1 & H2 & H3 & H4 & H5 & H6 & H7 & H8 & _).
  assert (o1 = o) as -> by (destruct Ho as [[-> _]|(_ & Hx & _)]; [reflexivity|congruence]). exists wa, wb. repeat (split; [assumption|]). exact H8.
Qed.

(** ** Two saves *)
(** An object that was saved can be saved again, at any later time, by the same installation: it is left as it is, down to
    the targets of its records; the key's file gets the same JSON; no name is drawn; and in the directory of the key
    there are the same files as before, with the same content. *)
Theorem C78_saved_again : forall E n n2 p k o w o' j w' w2 o2 j2 w2',
  absolute (s_cwd E) -> absolute (o_base p) -> registered_classes E -> faithful_methods E -> writes_determined E E ->
  s_retouch E = $"auto" \/ s_retouch E = $"quit" -> s_validate E = true -> plain k -> k <> $".gitignore" ->
  well_formed (w_fs w) -> holds E w (key_dir p k) [] o -> boxed E o -> is_serializable E o = true ->
  save E n p k o w = (Ok (o', j), w') ->
  let dir := location (s_cwd E) (key_dir p k) in
  well_formed (w_fs w2) -> (forall q, ~ own_ignore E p k (dir ++ q) -> file_at (w_fs w2) (dir ++ q) = file_at (w_fs w') (dir ++ q)) ->
  save E n2 p k o' w2 = (Ok (o2, j2), w2') ->
  o2 = o' /\ j2 = j /\ w_uuid w2' = w_uuid w2 /\
  forall q, ~ own_ignore E p k (dir ++ q) -> file_at (w_fs w2') (dir ++ q) = file_at (w_fs w') (dir ++ q).
Proof.
  intros E n n2 p k o w o' j w' w2 o2 j2 w2' Hc Hb Hreg Hfai Hwri Hret Hval Hk Hgi Hw Hbu Hbx Hse H dir Hw2 Hfs H2.
  destruct (save_around E p k n o w o' j w' Hc Hb Hret Hk Hgi Hw Hse H) as (wa & wb & A1 & A2 & A3 & A4 & A5 & A6 & A7 & A8).
  set (i := List.length (w_mounts w)) in *. set (D0 := key_dir p k) in *. fold dir in A6, A8. set (l := dir ++ [k ++ $".json"]) in *.
  assert (Hdir : absolute D0) by (apply key_dir_absolute; assumption).
  destruct (ser_first E E i D0 w Hc Hdir Hret Hret Hval Hval Hreg Hfai (same_code_refl E) Hwri eq_refl n o false [] (mkCtx i []) wa o' j wb Hbu Hbx)
    as (F1 & F2 & (_ & _ & _ & F3) & F4); [discriminate|apply sctx_top|assumption|exact A1|].
  assert (Hse2 : is_serializable E o' = true) by (rewrite F3; assumption).
  destruct (save_around E p k n2 o' w2 o2 j2 w2' Hc Hb Hret Hk Hgi Hw2 Hse2 H2) as (wc & wd & B1 & B2 & B3 & B4 & B5 & B6 & B7 & B8).
  set (i2 := List.length (w_mounts w2)) in *. fold D0 in B2, B3, B6, B8. fold dir in B6, B8. fold l in B6, B8.
  set (g := RoundProof.fresh E i D0 wa wb) in *.
  assert (Hnl : forall q c, g q c -> q <> l) by (intros q c (_ & G & _) ->; apply G, A6; reflexivity).
  destruct (F4 n2 i2 (mkCtx i2 []) wc o2 j2 wd (sctx_top i2) B2) as (-> & -> & C1 & C2 & C3 & C4 & C5).
  { intros q c Hq Hx. apply B6 in Hx. exact (Hnl q c Hq Hx). }
  { exact B1. }
  split; [reflexivity|]. split; [reflexivity|]. split; [congruence|].
  intros q Hq. rewrite B8 by assumption. rewrite A8 by assumption. destruct (loc_eq_dec (dir ++ q) l) as [|Hne]; [reflexivity|].
  assert (Hd : (exists c, g (dir ++ q) c) \/ forall c, ~ g (dir ++ q) c).
  { destruct (claimed_dec E i D0 wb (dir ++ q) A3) as [D1|D1]; [|right; intros c (Hx & _); contradiction].
    destruct (file_at (w_fs wb) (dir ++ q)) as [c|] eqn:Ef; [|right; intros c (_ & _ & Hx); congruence].
    left. exists c. split; [assumption|]. split; [|assumption]. intros Hx. apply A6 in Hx. contradiction. }
  destruct Hd as [[c Hg]|Hg]; [rewrite (C4 _ c Hg); symmetry; apply Hg|]. rewrite C5 by assumption. rewrite B7, Hfs by assumption.
  rewrite A8 by assumption. destruct (loc_eq_dec (dir ++ q) l); [contradiction|reflexivity].
Qed.

(** So files do not pile up: however often it is saved, the files stay the same. *)
Theorem C78_files_stay : forall E n p k o w o' j w' m w'',
  absolute (s_cwd E) -> absolute (o_base p) -> registered_classes E -> faithful_methods E -> writes_determined E E ->
  s_retouch E = $"auto" \/ s_retouch E = $"quit" -> s_validate E = true -> plain k -> k <> $".gitignore" ->
  well_formed (w_fs w) -> holds E w (key_dir p k) [] o -> boxed E o -> is_serializable E o = true ->
  save E n p k o w = (Ok (o', j), w') -> saves E n p k m o' w' w'' ->
  let dir := location (s_cwd E) (key_dir p k) in
  w_uuid w'' = w_uuid w' /\ forall q, ~ own_ignore E p k (dir ++ q) -> file_at (w_fs w'') (dir ++ q) = file_at (w_fs w') (dir ++ q).
Proof.
  intros E n p k o w o' j w' m w'' Hc Hb Hreg Hfai Hwri Hret Hval Hk Hgi Hw Hbu Hbx Hse H Hs dir.
  assert (Hw' : well_formed (w_fs w')) by (eapply save_wf; eassumption).
  assert (G : forall m o2 w2 w3, saves E n p k m o2 w2 w3 -> o2 = o' -> well_formed (w_fs w2) ->
            (forall q, ~ own_ignore E p k (dir ++ q) -> file_at (w_fs w2) (dir ++ q) = file_at (w_fs w') (dir ++ q)) ->
            w_uuid w3 = w_uuid w2 /\ forall q, ~ own_ignore E p k (dir ++ q) -> file_at (w_fs w3) (dir ++ q) = file_at (w_fs w') (dir ++ q)).
  { clear Hs m w''. intros m o2 w2 w3 Hs. induction Hs as [o2 w2|m o2 w2 o3 j3 w3 w4 H3 Hs IH]; intros -> Hwf Hf; [auto|].
    destruct (C78_saved_again E n n p k o w o' j w' w2 o3 j3 w3) as (-> & -> & G3 & G4); try assumption.
    destruct IH as [I1 I2]; [reflexivity|eapply save_wf; eassumption|exact G4|]. split; [congruence|exact I2]. }
  apply (G m o' w' w'' Hs); auto.
Qed.

(** ** An example *)
(** The loaded model of C64's example with a changed number and a new record without a target: one name is drawn at the
    first save, none at the next two; the new file is there and stays. *)
Lemma ag_boxed : boxed rt_env (kp_changed (fresh_record (blob "new"))).
Proof.
  unfold kp_changed. eapply bx_model; [reflexivity|]. intros f v Hf Hno Ha. cbn in Hf. destruct Hf as [<-|[<-|[<-|[]]]]; [| |discriminate Hno].
  - match type of Ha with assoc _ ((_, ?o) :: _) = _ => assert (Hv : v = o) by (enough (Hx0 : Some v = Some o) by congruence; rewrite <- Ha; reflexivity) end. subst v.
    constructor. intros y [<-|[<-|[<-|[]]]]; repeat constructor.
  - match type of Ha with assoc _ (_ :: (_, ?o) :: _) = _ => assert (Hv : v = o) by (enough (Hx0 : Some v = Some o) by congruence; rewrite <- Ha; reflexivity) end. subst v. repeat constructor.
Qed.
Example C78_example :
  let E := rt_env in let p := ex_opts in let k := $"new" in let o := kp_changed (fresh_record (blob "new")) in let w := kp_world in
  absolute (s_cwd E) /\ absolute (o_base p) /\ registered_classes E /\ faithful_methods E /\ writes_determined E E /\
  s_retouch E = $"auto" /\ s_validate E = true /\ plain k /\ k <> $".gitignore" /\
  well_formed (w_fs w) /\ holds E w (key_dir p k) [] o /\ boxed E o /\ is_serializable E o = true /\
  exists o' j w' w'', save E 11 p k o w = (Ok (o', j), w') /\ o' <> o /\ w_uuid w' <> w_uuid w /\ saves E 11 p k 2 o' w' w'' /\ w_uuid w'' = w_uuid w'.
Proof.
  cbn zeta. destruct rt_registered as [R1 R2]. split; [eexists; reflexivity|]. split; [eexists; reflexivity|]. split; [assumption|]. split; [assumption|].
  split; [intros c k k' d; reflexivity|]. split; [reflexivity|]. split; [reflexivity|].
  split; [repeat split; try discriminate; cbn; intros Hx; repeat destruct Hx as [Hx|Hx]; try discriminate; contradiction|]. split; [discriminate|].
  split; [vm_compute; repeat constructor; cbn; intuition discriminate|].
  split; [apply kp_holds; apply h_rec; [intros sd _; eapply h_leaf; reflexivity|apply auto_ordinary; apply rt_uuids]|]. split; [exact ag_boxed|]. split; [reflexivity|].
  let v := eval vm_compute in (save rt_env 11 ex_opts ($"new") (kp_changed (fresh_record (blob "new"))) kp_world) in
  match v with (Ok (?o1, ?j1), ?w1) =>
    let v2 := eval vm_compute in (save rt_env 11 ex_opts ($"new") o1 w1) in
    match v2 with (Ok (?o2, ?j2), ?w2) =>
      let v3 := eval vm_compute in (save rt_env 11 ex_opts ($"new") o2 w2) in
      match v3 with (Ok (?o3, ?j3), ?w3) =>
        exists o1, j1, w1, w3; split; [vm_compute; reflexivity|split; [vm_compute; discriminate|split; [vm_compute; discriminate|split; [|vm_compute; reflexivity]]]];
          refine (saves_more _ _ _ _ _ _ _ o2 j2 w2 _ _ _); [vm_compute; reflexivity|];
          refine (saves_more _ _ _ _ _ _ _ o3 j3 w3 _ _ _); [vm_compute; reflexivity|apply saves_none]
      end
    end
  end.
Qed.

Print Assumptions C78_saved_again.
Print Assumptions C78_files_stay.
