(** Loading a key in a later run and saving it right away: C79. *)
From Coq Require Import List Ascii String Bool Arith ZArith Lia.
From Verif Require Import Base PosixModel FsModel PathModel SerialModel StoreModel StoreFrame StoreMount StoreSpec StoreLocal StorePlace
     StoreRecord StoreSave StoreExample SerialSpec SerialProof RoundSpec KeepSpec CleanSpec SameSpec AgainSpec RoundProof ReplayProof CleanProof DropProof DropSettled KeepProof SameProof AgainProof ReloadProof ContextProof KeepSave PathSpec MountSpec DirSpec
     PosixProof FsProof DirProof TargetProof MountProof HistoryProof PathFacts PropsStore PropsRepo PropsRound PropsKeep PropsDelete PropsCrash PropsPile PropsAgain.
Import ListNotations.

Local Arguments str_eq_dec : simpl never.
Local Arguments atom_eq_dec : simpl never.

(** ** The first save *)
(** What the save left behind, as later runs see it: the JSON file of the key and the files [g] of its records. *)
Lemma save_leaves E E2 n p k o w o' j w' :
  absolute (s_cwd E) -> absolute (o_base p) -> registered_classes E -> ordinary_uuids E -> faithful_methods E ->
  s_retouch E = $"auto" \/ s_retouch E = $"quit" -> s_validate E = true -> plain k -> k <> $".gitignore" ->
  well_formed (w_fs w) -> built E o -> recorded E o -> later_run E E2 ->
  save E n p k o w = (Ok (o', j), w') -> (forall l, own_ignore E p k l -> ~ happened w w' (EvWrite l)) ->
  let D0 := key_dir p k in let D := location (s_cwd E) D0 in let l := D ++ [k ++ $".json"] in
  exists g st, Rel E2 D0 n g [] None j st /\ json_ready j /\ ~ own_ignore E p k l /\ file_at (w_fs w') l = Some (Json (to_json (s_float E) j)) /\
    (forall q c, g q c -> q <> l /\ exists r, q = D ++ r /\ ~ own_ignore E p k (D ++ r) /\ file_at (w_fs w') q = Some c).
Proof.
  intros Hc Hb Hreg Huid Hfai Hret Hval Hk Hgi Hw Hbu Hrec (Hsame & Hwri & Hflo & Hlim & Hret2 & Hval2) H Hcl D0 D l.
  destruct (save_around_any E p k n o w o' j w' Hc Hb Hret Hk Hgi Hw H) as (o1 & wa & wb & Ho & A1 & A2 & A3 & A4 & A5 & A6 & A7 & A8 & q0 & A9).
  set (i := List.length (w_mounts w)) in *. fold D0 in A2, A3, A6, A8. fold D in A6, A8. fold l in A6, A8, A9.
  assert (Hdir : absolute D0) by (apply key_dir_absolute; assumption).
  assert (Hb1 : built E o1).
  { destruct Ho as [[-> _]|(-> & _)]; [assumption|]. unfold fresh_record. apply b_rec; [assumption|apply auto_ordinary; assumption]. }
  assert (Hr1 : recorded E o1) by (destruct Ho as [[-> _]|(-> & _)]; [assumption|apply r_rec; assumption]).
  destruct (ser_saved E E2 i D0 Hc Hdir Hret Hval Hreg Huid Hfai Hsame Hlim n o1 false [] (mkCtx i []) wa o' j wb Hb1) as (_ & _ & Sj & _);
    [discriminate|apply sctx_top|assumption|exact A1|].
  destruct (ser_rsaved E E2 i D0 Hc Hdir Hret Hval Hreg Huid Hfai Hsame Hlim Hret2 Hval2 Hwri Hflo n o1 false [] (mkCtx i []) wa o' j wb Hb1 Hr1) as ([_ (evs & Hl & Hf)] & _ & HR);
    [discriminate|apply sctx_top|assumption|exact A1|]. cbn iota in HR.
  specialize (A9 evs Hl).
  assert (Hnl : ~ own_ignore E p k l) by (intros Hx; apply (Hcl _ Hx); eexists; split; [exact A9|right; left; reflexivity]).
  exists (RoundProof.fresh E i D0 wa wb), (sto_name E2 o1). split; [exact HR|]. split; [exact Sj|]. split; [exact Hnl|].
  split; [unfold l; rewrite A8 by exact Hnl; destruct (loc_eq_dec _ _); [reflexivity|contradiction]|].
  intros q c (G1 & G2 & G3). assert (Hq : q <> l) by (intros ->; apply G2, A6; reflexivity). split; [assumption|].
  destruct (Hf q G1) as [Hx|Hx]; [contradiction|]. destruct G1 as (m1 & u1 & r1 & _ & _ & _ & ->). fold D in G2, G3, Hq, Hx |- *. exists r1. split; [reflexivity|].
  assert (Hni : ~ own_ignore E p k (D ++ r1)).
  { intros Hy. apply (Hcl _ Hy). eexists. split; [exact A9|]. do 3 right. apply in_or_app. left. exact Hx. }
  split; [assumption|]. rewrite A8 by assumption. destruct (loc_eq_dec _ _); [contradiction|assumption].
Qed.

(** ** One load *)
Lemma load_back E2 n m p k j g st w2 o2 w3 fr :
  absolute (s_cwd E2) -> absolute (o_base p) -> s_limit E2 = None -> plain k -> k <> $".gitignore" -> n <= m ->
  let D0 := key_dir p k in let D := location (s_cwd E2) D0 in let l := D ++ [k ++ $".json"] in
  Rel E2 D0 n g [] None j st -> json_ready j -> well_formed (w_fs w2) -> file_at (w_fs w2) l = Some (Json (to_json fr j)) -> has g w2 ->
  load E2 m p k None None w2 = (Ok o2, w3) ->
  Back E2 D0 g [] false o2 j /\ is_serializable E2 o2 = true /\ well_formed (w_fs w3) /\
  (forall q, ~ own_ignore E2 p k (D ++ q) -> file_at (w_fs w3) (D ++ q) = file_at (w_fs w2) (D ++ q)).
Proof.
  intros Hc Hb Hlim Hk Hgi Hnm D0 D l HR Hj Hw2 Hlj Hh H.
  assert (Hdir : absolute D0) by (apply key_dir_absolute; assumption).
  set (i2 := List.length (w_mounts w2)). set (w1 := opened p k w2).
  assert (Hjat : json_at E2 p k = l) by (rewrite (json_at_slash E2 p k [k]); [reflexivity|reflexivity|discriminate|constructor; [assumption|constructor]]).
  assert (Hlk : lookup (w_fs w2) l = Some (File (Json (to_json fr j)))) by (unfold file_at in Hlj; destruct (lookup (w_fs w2) l) as [[|]|]; congruence).
  set (wl := logged (EvRead l) (logged (EvStat l) w1)).
  assert (Hok1 : mnt_ok i2 D0 wl) by (apply (opened_ok p k w2); assumption).
  destruct (HR m i2 (mkCtx i2 []) wl Hnm (sctx_top i2) Hok1) as (o & wd & L1 & L2 & L3 & _ & _ & L4 & _); [exact Hh|]. cbn [Backs] in L3.
  pose proof (de_statics _ _ _ _ _ _ _ _ L1) as Hsd. destruct L2 as [L2 L2'].
  assert (Hokd : mnt_ok i2 D0 wd) by (apply L2'; assumption).
  pose proof Hokd as [(md & Hmd1 & Hmd2 & Hmd3) Hwfd].
  assert (Hsm : m_gitignore md = o_gitignore p /\ m_cluster md = o_cluster p).
  { pose proof (statics_nth _ _ _ Hmd1) as Hn. rewrite Hsd in Hn. unfold statics, wl, w1, opened in Hn. cbn [logged w_mounts] in Hn.
    rewrite nth_error_map, nth_error_app2, Nat.sub_diag in Hn by (unfold i2; lia). cbn in Hn. injection Hn as _ Hn1 Hn2. auto. }
  destruct Hsm as [Hsm1 Hsm2].
  rewrite load_eq in H by assumption. cbn zeta in H. fold i2 in H. rewrite Hjat in H.
  change (mkWorld (w_fs w2) (w_mounts w2 ++ [new_mount (key_dir p k) (o_cluster p) (o_gitignore p)]) (w_inputs w2) (w_uuid w2) (w_log w2)) with w1 in H.
  rewrite mbind_run in H. unfold m_exists in H. rewrite op_free in H by assumption. cbn [logged w_fs] in H.
  assert (Hex : exists_at (w_fs w1) l = true) by (unfold exists_at; change (w_fs w1) with (w_fs w2); rewrite Hlk; reflexivity).
  rewrite Hex in H. rewrite mbind_run, mbind_run in H. unfold m_read in H. rewrite op_free in H by assumption. cbn [logged w_fs] in H.
  change (w_fs w1) with (w_fs w2) in H. rewrite Hlk in H.
  change (of_json (to_json fr j)) with (through_json fr j) in H. rewrite through_json_ready in H by assumption.
  match type of H with context [deserialize E2 m (Some (mkCtx i2 [])) j ?x] => change x with wl in H end. unfold deserialize in H. rewrite L1 in H.
  rewrite mbind_run in H. unfold close_context in H. rewrite op_free in H by assumption.
  cbn [logged c_mnt w_mounts w_fs] in H. rewrite Hmd1 in H. destruct (mount_close (s_cwd E2) (w_fs wd) md) as [fs3|e] eqn:Hcd; [|discriminate].
  unfold ret in H. injection H as <- <-. cbn [w_fs set_fs].
  split; [exact L3|]. split; [apply andb_prop in L4; apply L4|]. split; [eapply mount_close_wf; eassumption|].
  intros q Hq. rewrite (close_away _ _ _ _ Hc Hwfd Hcd).
  - rewrite L2. reflexivity.
  - intros Hgt Hx. rewrite Hmd2, Hsm2 in Hx. apply own_ignore_loc in Hx; try assumption; [contradiction|congruence].
Qed.

(** ** Load and save *)
Lemma own_same E E2 p k l : s_cwd E2 = s_cwd E -> own_ignore E2 p k l <-> own_ignore E p k l.
Proof. intros H. unfold own_ignore. rewrite H. reflexivity. Qed.

(** A model built in memory, without storables outside records, is saved; a later run loads the key and saves what it got:
    it comes out as it was loaded, the key's file gets the same JSON, no name is drawn, and in the directory of the key
    every file is as the first save left it or as it was before the load. *)
Theorem C79_load_and_save : forall E E2 n m n2 p k o w o' j w' w2 o2 w3 o3 j2 w4,
  absolute (s_cwd E) -> absolute (o_base p) -> registered_classes E -> ordinary_uuids E -> faithful_methods E ->
  s_retouch E = $"auto" \/ s_retouch E = $"quit" -> s_validate E = true -> plain k -> k <> $".gitignore" ->
  well_formed (w_fs w) -> built E o -> recorded E o -> later_run E E2 -> n <= m ->
  save E n p k o w = (Ok (o', j), w') -> (forall l, own_ignore E p k l -> ~ happened w w' (EvWrite l)) ->
  let dir := location (s_cwd E) (key_dir p k) in
  well_formed (w_fs w2) -> (forall q, ~ own_ignore E p k (dir ++ q) -> file_at (w_fs w2) (dir ++ q) = file_at (w_fs w') (dir ++ q)) ->
  load E2 m p k None None w2 = (Ok o2, w3) -> save E2 n2 p k o2 w3 = (Ok (o3, j2), w4) ->
  o3 = o2 /\ j2 = j /\ w_uuid w4 = w_uuid w3 /\ well_formed (w_fs w4) /\
  forall q, ~ own_ignore E p k (dir ++ q) -> file_at (w_fs w4) (dir ++ q) = file_at (w_fs w') (dir ++ q).
Proof.
  intros E E2 n m n2 p k o w o' j w' w2 o2 w3 o3 j2 w4 Hc Hb Hreg Huid Hfai Hret Hval Hk Hgi Hw Hbu Hrec Hlat Hnm H Hcl dir Hw2 Hfs HL HS.
  destruct (save_leaves E E2 n p k o w o' j w') as (g & st & HR & Hj & Hnl & Hlj & Hg); try assumption.
  pose proof Hlat as (Hsame & Hwri & Hflo & Hlim & Hret2 & Hval2).
  assert (Hcwd : s_cwd E2 = s_cwd E) by apply Hsame. assert (Hc2 : absolute (s_cwd E2)) by (rewrite Hcwd; assumption).
  set (D0 := key_dir p k) in *. fold dir in Hnl, Hlj, Hg. set (l := dir ++ [k ++ $".json"]) in *.
  destruct (load_back E2 n m p k j g st w2 o2 w3 (s_float E) Hc2 Hb Hlim Hk Hgi Hnm HR Hj Hw2) as (B1 & B2 & B3 & B4); [| |assumption|].
  { rewrite Hcwd. fold D0 dir l. unfold l. rewrite Hfs by exact Hnl. exact Hlj. }
  { intros q c Hq. destruct (Hg q c Hq) as (_ & r & -> & Hr & <-). apply Hfs. assumption. }
  rewrite Hcwd in B4. fold D0 dir in B4.
  assert (Hf3 : forall q, ~ own_ignore E p k (dir ++ q) -> file_at (w_fs w3) (dir ++ q) = file_at (w_fs w') (dir ++ q)).
  { intros q Hq. rewrite B4 by (rewrite (own_same E E2) by assumption; assumption). apply Hfs. assumption. }
  destruct (save_around E2 p k n2 o2 w3 o3 j2 w4 Hc2 Hb Hret2 Hk Hgi B3 B2 HS) as (wc & wd & S1 & S2 & S3 & S4 & S5 & S6 & S7 & S8).
  set (i3 := List.length (w_mounts w3)) in *. fold D0 in S2, S3, S6, S8. rewrite Hcwd in S6, S8. fold dir in S6, S8. fold l in S6, S8.
  destruct (B1 n2 i3 (mkCtx i3 []) wc o3 j2 wd (sctx_top i3) S2) as (-> & -> & T1 & T2 & T3 & T4).
  { intros q c Hq Hx. apply S6 in Hx. destruct (Hg q c Hq) as [Hn _]. contradiction. }
  { intros q c Hq. rewrite S7. destruct (Hg q c Hq) as (_ & r & -> & Hr & <-). apply Hf3. assumption. }
  { exact S1. }
  split; [reflexivity|]. split; [reflexivity|]. split; [congruence|]. split; [eapply save_wf; eassumption|].
  intros q Hq. rewrite S8 by (rewrite (own_same E E2) by assumption; assumption). destruct (loc_eq_dec (dir ++ q) l) as [->|Hne].
  - rewrite Hlj, Hflo. reflexivity.
  - rewrite T4, S7. apply Hf3. assumption.
Qed.

(** However often that is done, by whatever later runs. *)
Theorem C79_visits_change_nothing : forall E n p k o w o' j w' fs,
  absolute (s_cwd E) -> absolute (o_base p) -> registered_classes E -> ordinary_uuids E -> faithful_methods E ->
  s_retouch E = $"auto" \/ s_retouch E = $"quit" -> s_validate E = true -> plain k -> k <> $".gitignore" ->
  well_formed (w_fs w) -> built E o -> recorded E o ->
  save E n p k o w = (Ok (o', j), w') -> (forall l, own_ignore E p k l -> ~ happened w w' (EvWrite l)) ->
  visits E n p k (w_fs w') fs ->
  let dir := location (s_cwd E) (key_dir p k) in
  forall q, ~ own_ignore E p k (dir ++ q) -> file_at fs (dir ++ q) = file_at (w_fs w') (dir ++ q).
Proof.
  intros E n p k o w o' j w' fs Hc Hb Hreg Huid Hfai Hret Hval Hk Hgi Hw Hbu Hrec H Hcl Hv dir.
  assert (Hw' : well_formed (w_fs w')) by (eapply save_wf; eassumption).
  assert (G : forall f1 f2, visits E n p k f1 f2 -> well_formed f1 ->
            (forall q, ~ own_ignore E p k (dir ++ q) -> file_at f1 (dir ++ q) = file_at (w_fs w') (dir ++ q)) ->
            forall q, ~ own_ignore E p k (dir ++ q) -> file_at f2 (dir ++ q) = file_at (w_fs w') (dir ++ q)).
  { clear Hv fs. intros f1 f2 Hv. induction Hv as [f|E2 m1 m2 w2 o2 w3 o3 j3 w4 f Hlat Hnm HL HS Hv IH]; intros Hwf Hf; [assumption|].
    destruct (C79_load_and_save E E2 n m1 m2 p k o w o' j w' w2 o2 w3 o3 j3 w4) as (_ & _ & _ & G1 & G2); try assumption. apply IH; assumption. }
  apply (G _ _ Hv Hw'). reflexivity.
Qed.

(** ** An example *)
(** The model of C45's example (two records that collide, a bare storable in a plain list) is saved; two later runs with
    other uuids load and save it. *)
Definition rl_later : senv :=
  mkSenv (s_class rt_env) (s_ser rt_env) (s_sto rt_env) (s_write rt_env) (s_read rt_env) (fun k => $"other" ++ str_of_N (N.of_nat k))
    (s_float rt_env) (s_cwd rt_env) ($"quit") true true (s_suffix rt_env) None.
Lemma rl_recorded : recorded rt_env ex_model.
Proof.
  apply r_model with (fds := match k_kind (s_class rt_env 1) with SModel f => f | _ => [] end); [reflexivity|].
  intros f v Hf Hn Ha. cbn in Hf. repeat destruct Hf as [<-|Hf]; try contradiction; cbn in Hn, Ha; try discriminate; injection Ha as <-; (split; [|try (intros; reflexivity); try (intros Hx; exfalso; apply Hx; reflexivity)]).
  - constructor. intros x [<-|[<-|[]]]; constructor.
  - constructor. constructor. intros x [<-|[<-|[]]]; (split; [repeat constructor|reflexivity]).
Qed.
Example C79_example :
  let E := rt_env in let p := ex_opts in let k := $"new" in let o := ex_model in let w := ex_world in
  absolute (s_cwd E) /\ absolute (o_base p) /\ registered_classes E /\ ordinary_uuids E /\ faithful_methods E /\
  s_retouch E = $"auto" /\ s_validate E = true /\ plain k /\ k <> $".gitignore" /\
  well_formed (w_fs w) /\ built E o /\ recorded E o /\ later_run E rl_later /\
  exists o' j w' o2 w3 o3 j3 w4 fs, save E 10 p k o w = (Ok (o', j), w') /\ (forall l, own_ignore E p k l -> ~ happened w w' (EvWrite l)) /\
    load rl_later 10 p k None None (mkWorld (w_fs w') [] [] 0 []) = (Ok o2, w3) /\ o2 <> o' /\ save rl_later 10 p k o2 w3 = (Ok (o3, j3), w4) /\
    happened w3 w4 (EvWrite [$"proj"; $".dman"; $"gen"; $"new"; $"new.json"]) /\
    visits E 10 p k (w_fs w') fs /\ file_at fs [$"proj"; $".dman"; $"gen"; $"new"; $"x0.bin"] = Some (Text ($"two")).
Proof.
  cbn zeta. destruct rt_registered as [R1 R2]. split; [eexists; reflexivity|]. split; [eexists; reflexivity|]. split; [assumption|]. split; [exact rt_uuids|]. split; [assumption|].
  split; [reflexivity|]. split; [reflexivity|].
  split; [repeat split; try discriminate; cbn; intros Hx; repeat destruct Hx as [Hx|Hx]; try discriminate; contradiction|]. split; [discriminate|].
  split; [cbn; repeat constructor; cbn; tauto|]. split; [exact rt_built|]. split; [exact rl_recorded|].
  assert (Hl : later_run rt_env rl_later) by (split; [repeat split|]; split; [intros c x y d; reflexivity|]; repeat split; right; reflexivity).
  split; [exact Hl|].
  let v := eval vm_compute in (save rt_env 10 ex_opts ($"new") ex_model ex_world) in
  match v with (Ok (?o1, ?j1), ?w1) =>
    let v2 := eval vm_compute in (load rl_later 10 ex_opts ($"new") None None (mkWorld (w_fs w1) [] [] 0 [])) in
    match v2 with (Ok ?o2, ?w2) =>
      let v3 := eval vm_compute in (save rl_later 10 ex_opts ($"new") o2 w2) in
      match v3 with (Ok (?o3, ?j3), ?w3) =>
        let v4 := eval vm_compute in (load rl_later 11 ex_opts ($"new") None None w3) in
        match v4 with (Ok ?o4, ?w4) =>
          let v5 := eval vm_compute in (save rl_later 12 ex_opts ($"new") o4 w4) in
          match v5 with (Ok (?o5, ?j5), ?w5) =>
            exists o1, j1, w1, o2, w2, o3, j3, w3, (w_fs w5);
            split; [vm_compute; reflexivity|]; split; [intros l (_ & Hx & _); discriminate Hx|]; split; [vm_compute; reflexivity|]; split; [discriminate|]; split; [vm_compute; reflexivity|];
            split; [exists (firstn (List.length (w_log w3) - List.length (w_log w2)) (w_log w3)); split; [vm_compute; reflexivity|vm_compute; tauto]|];
            split; [|vm_compute; reflexivity];
            refine (visits_more _ _ _ _ rl_later 10 10 (mkWorld (w_fs w1) [] [] 0 []) o2 w2 o3 j3 w3 _ Hl (le_n _) _ _ _); [vm_compute; reflexivity|vm_compute; reflexivity|];
            refine (visits_more _ _ _ _ rl_later 11 12 w3 o4 w4 o5 j5 w5 _ Hl (le_S _ _ (le_n _)) _ _ _); [vm_compute; reflexivity|vm_compute; reflexivity|]; apply visits_none
          end
        end
      end
    end
  end.
Qed.

Print Assumptions C79_load_and_save.
Print Assumptions C79_visits_change_nothing.
