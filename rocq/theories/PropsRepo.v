(** The repository functions: C46, C47, C48. *)
From Coq Require Import List Ascii String Bool Arith ZArith Lia.
From Verif Require Import Base PosixModel FsModel PathModel SerialModel StoreModel StoreFrame StoreMount StoreSpec StoreLocal StorePlace
     StoreRecord StoreSave StoreExample PathSpec MountSpec DirSpec PosixProof FsProof DirProof TargetProof MountProof HistoryProof PathFacts PropsRecord.
Import ListNotations.

(** ** C48 *)
(** Where [load] looks for the key. *)
Definition json_at (E : senv) (p : opts) (k : str) : loc := requested (s_cwd E) (key_dir p k) (k ++ $".json").
Lemma load_eq E n p k d df w : absolute (s_cwd E) ->
  let cx := mkCtx (List.length (w_mounts w)) [] in
  let w1 := mkWorld (w_fs w) (w_mounts w ++ [new_mount (key_dir p k) (o_cluster p) (o_gitignore p)]) (w_inputs w) (w_uuid w) (w_log w) in
  load E n p k d df w =
  (e <- m_exists E (json_at E p k);;
   o <- (if e then x <- m_read E (json_at E p k);; match x with Json j => deserialize E n (Some cx) (of_json j) | Text _ => raise ValueError end
         else match d, df with None, None => raise FileNotFoundError | None, Some v => ret v | Some v, _ => ret v end);;
   _ <- close_context E cx;; ret o) w1.
Proof.
  intros Hc cx w1. unfold load. unfold mbind at 1. unfold open_context. fold w1. fold cx.
  unfold mbind at 1. unfold ctx_dir. unfold mbind at 1. unfold m_dir_of. cbn [cx c_mnt c_sub]. unfold w1 at 1 2. cbn [w_mounts].
  rewrite nth_error_app2, Nat.sub_diag by lia. cbn [nth_error new_mount m_dir]. unfold ret at 1.
  rewrite os_loc_location, location_sub_nil, <- requested_join2 by assumption. reflexivity.
Qed.
Lemma close_fresh E p k w fs mounts inp u lg : s_limit E = None -> nth_error mounts w = Some (new_mount (key_dir p k) (o_cluster p) (o_gitignore p)) ->
  close_context E (mkCtx w []) (mkWorld fs mounts inp u lg) =
  (Ok tt, mkWorld (prune_directories fs (os_loc (s_cwd E) (key_dir p k))) mounts inp u (EvClose w :: lg)).
Proof.
  intros Hl Hm. unfold close_context. rewrite op_free by assumption. unfold logged. cbn [c_mnt w_mounts w_fs w_inputs w_uuid w_log]. rewrite Hm.
  unfold mount_close, new_mount. cbn [m_dir m_gitignore m_touched flat_map]. destruct (o_gitignore p); reflexivity.
Qed.
(** No file for the key: the default, else the value of the factory, else FileNotFoundError; no file changes, and
    with the exception no directory either. *)
Theorem C48_default_iff_no_file : forall E n p k d df w,
  absolute (s_cwd E) -> s_limit E = None -> well_formed (w_fs w) -> exists_at (w_fs w) (json_at E p k) = false ->
  exists w', load E n p k d df w =
      (match d with Some v => Ok v | None => match df with Some v => Ok v | None => Exn FileNotFoundError end end, w') /\
    (forall q, file_at (w_fs w') q = file_at (w_fs w) q) /\ (d = None -> df = None -> w_fs w' = w_fs w).
Proof.
  intros E n p k d df w Hc Hl Hw Hx. rewrite load_eq by assumption. cbn zeta. set (w1 := mkWorld _ _ _ _ _).
  unfold mbind at 1. unfold m_exists. rewrite op_free by assumption. cbn [logged w_fs]. change (w_fs w1) with (w_fs w). rewrite Hx.
  assert (Hn : nth_error (w_mounts w1) (List.length (w_mounts w)) = Some (new_mount (key_dir p k) (o_cluster p) (o_gitignore p))).
  { unfold w1. cbn [w_mounts]. rewrite nth_error_app2, Nat.sub_diag by lia. reflexivity. }
  destruct d as [v|]; [|destruct df as [v|]].
  1,2: unfold mbind at 1; unfold ret at 1; unfold mbind; unfold logged; rewrite (close_fresh E p k) by assumption; unfold ret;
    eexists; split; [reflexivity|]; split; [intros q; cbn [w_fs]; apply prune_directories_file_at; assumption|discriminate].
  unfold mbind, raise. eexists. split; [reflexivity|]. split; reflexivity.
Qed.
(** There is something at that place: the defaults play no role. *)
Theorem C48_existing_file_wins : forall E n p k d df d2 df2 w,
  absolute (s_cwd E) -> exists_at (w_fs w) (json_at E p k) = true ->
  load E n p k d df w = load E n p k d2 df2 w.
Proof.
  intros E n p k d df d2 df2 w Hc Hx. rewrite !load_eq by assumption. cbn zeta. set (w1 := mkWorld _ _ _ _ _).
  unfold mbind at 1. symmetry. unfold mbind at 1. symmetry. unfold m_exists. 
  destruct (op E _ _ w1) as [[e|ex] w2] eqn:Eo; [|reflexivity]. apply op_cases in Eo as [(Eo & _)|Eo]; [discriminate|].
  injection Eo as <- <-. cbn [logged w_fs]. change (w_fs w1) with (w_fs w). rewrite Hx. reflexivity.
Qed.
Example C48_example :
  let E := ex_env "auto" false None in
  exists_at (w_fs ex_world) (json_at E ex_opts ($"new")) = false /\ exists_at (w_fs ex_world) (json_at E ex_opts ($"old")) = true /\
  fst (load E 3 ex_opts ($"new") (Some (OAtom (AInt 1))) None ex_world) = Ok (OAtom (AInt 1)).
Proof. repeat split. Qed.

(** ** C47 *)
(** A key with a slash: [save] writes its last component in the directory of the key; [load] looks for the whole
    key below that directory. *)
Lemma json_at_slash E p k ks : k = join_sep ks -> ks <> [] -> Forall plain ks ->
  json_at E p k = location (s_cwd E) (key_dir p k) ++ removelast ks ++ [last ks [] ++ $".json"].
Proof.
  intros Hk Hne Hpl. unfold json_at.
  assert (Hcl : Forall clean (removelast ks ++ [last ks [] ++ $".json"])).
  { rewrite (@app_removelast_last _ ks []) in Hpl by assumption. apply Forall_app in Hpl as [Hp1 Hp2]. apply Forall_app. split.
    - eapply Forall_impl; [|exact Hp1]. exact plain_clean.
    - inversion Hp2 as [|? ? Hx _]; subst. constructor; [|constructor]. apply plain_clean. apply plain_json. assumption. }
  assert (Hq : k ++ $".json" = join_sep (removelast ks ++ [last ks [] ++ $".json"])).
  { rewrite Hk. rewrite (@app_removelast_last _ ks []) at 1 by assumption. apply join_sep_suffix. }
  rewrite Hq. rewrite requested_join2, location_join2_any, isabs_join_clean by assumption.
  rewrite split_join; [apply walk_clean_app; assumption|apply clean_split; assumption|destruct (removelast ks); discriminate].
Qed.
Lemma not_gitignore x : x ++ $".json" <> $".gitignore".
Proof. intros H. apply (f_equal (@rev ascii)) in H. rewrite rev_app_distr in H. cbn in H. discriminate. Qed.
Theorem C47_slash_key : forall E n m p k a r b o w o' j w',
  absolute (s_cwd E) -> absolute (o_base p) -> In (s_retouch E) unattended -> s_limit E = None -> well_formed (w_fs w) ->
  plain a -> Forall plain r -> plain b -> k = join_sep (a :: r ++ [b]) ->
  save E n p k o w = (Ok (o', j), w') ->
  let dir := location (s_cwd E) (key_dir p k) in
  file_at (w_fs w') (dir ++ [b ++ $".json"]) = Some (Json (to_json (s_float E) j)) /\
  (exists_at (w_fs w') (dir ++ a :: r ++ [b ++ $".json"]) = false ->
   forall w2, w_fs w2 = w_fs w' ->
   fst (load E m p k None None w2) = Exn FileNotFoundError /\ forall d, fst (load E m p k (Some d) None w2) = Ok d).
Proof.
  intros E n m p k a r b o w o' j w' Hc Hb Hu Hl Hw Ha Hr Hpb Hk H dir.
  set (ks := a :: r ++ [b]) in *.
  assert (Hne : ks <> []) by discriminate. assert (Hpl : Forall plain ks).
  { constructor; [assumption|]. apply Forall_app. split; [assumption|]. constructor; [assumption|constructor]. }
  assert (Hks : ks = (a :: r) ++ [b]) by reflexivity.
  pose proof (save_inv E Hc Hu p k Hb n o w o' j w' ks Hne Hpl Hk Hw H) as HS. cbn zeta in HS.
  rewrite Hks, removelast_last, last_last in HS.
  destruct HS as (o1 & q & u & wa & wb & fs1 & fs2 & mt & _ & _ & _ & _ & [_ Hwb] & Hf1 & Hf2 & _ & _ & Hmd & Hcl).
  assert (Hwf : well_formed fs2) by exact (write_file_wf _ _ _ _ Hf2 (write_file_wf _ _ _ _ Hf1 Hwb)).
  destruct (close_files _ _ _ _ Hc Hwf Hcl) as (d0 & _ & Hfile).
  assert (Hwf' : well_formed (w_fs w')) by (eapply mount_close_wf; eassumption).
  split.
  - rewrite Hfile; [|intros Hx; apply app_inj_tail in Hx as [_ Hx]; exact (not_gitignore _ Hx)].
    rewrite (write_file_lookup _ _ _ _ Hf2). destruct (loc_eq_dec _ _) as [_|Hx]; [reflexivity|exfalso; apply Hx; reflexivity].
  - intros Hx w2 Hw2. assert (Hat : json_at E p k = dir ++ a :: r ++ [b ++ $".json"]).
    { rewrite (json_at_slash E p k ks) by assumption. rewrite Hks, removelast_last, last_last. reflexivity. }
    assert (Hx2 : exists_at (w_fs w2) (json_at E p k) = false) by (rewrite Hat, Hw2; exact Hx).
    split; [|intros d].
    + destruct (C48_default_iff_no_file E m p k None None w2 Hc Hl (eq_ind_r well_formed Hwf' Hw2) Hx2) as (w3 & Hload & _). rewrite Hload. reflexivity.
    + destruct (C48_default_iff_no_file E m p k (Some d) None w2 Hc Hl (eq_ind_r well_formed Hwf' Hw2) Hx2) as (w3 & Hload & _). rewrite Hload. reflexivity.
Qed.
(** Saving an unrelated model under "a/b": nothing is found afterwards. *)
Example C47_example :
  let E := ex_env "auto" false None in
  plain ($"a") /\ plain ($"b") /\ $"a/b" = join_sep ($"a" :: [] ++ [$"b"]) /\
  exists o' j w', save E 10 ex_opts ($"a/b") ex_model ex_world = (Ok (o', j), w') /\
    exists_at (w_fs w') (location (s_cwd E) (key_dir ex_opts ($"a/b")) ++ $"a" :: [] ++ [$"b.json"]) = false.
Proof.
  cbn zeta. split; [|split; [|split; [reflexivity|]]].
  1,2: repeat split; try discriminate; intros [Hx|[]]; discriminate.
  let v := eval vm_compute in (save (ex_env "auto" false None) 10 ex_opts ($"a/b") ex_model ex_world) in
  match v with (Ok (?o, ?j), ?w') => exists o, j, w' end. split; vm_compute; reflexivity.
Qed.

(** ** C46 *)
(** Two records with contents of the same class whose targets name the same place, serialized one after the other
    in one context with 'ignore' (the default): only the second content is on disk, and accessing the content of
    either record in a later load gives the second. *)
Theorem C46_ignore_loses_first : forall E n1 n2 cx dir comps c d1 d2 ta tb ta1 tb1 cs w wa wb o1 o2 s1 s2 ty1 ty2 w1 w2 x1 x2,
  absolute (s_cwd E) -> absolute dir -> well_formed (w_fs w) -> s_retouch E = $"ignore" -> context_at E w cx dir comps ->
  (forall k, s_write E c k d1 = (Some x1, None)) -> (forall k, s_write E c k d2 = (Some x2, None)) ->
  rec_target E (OLeaf c d1) ta w = (Ok ta1, wa) -> places ta1 cs ->
  serialize E n1 (Some cx) (ORec (OLeaf c d1) ta false None None) w = (Ok (o1, record_form s1 (Some ty1)), w1) ->
  rec_target E (OLeaf c d2) tb w1 = (Ok tb1, wb) -> places tb1 cs ->
  serialize E n2 (Some cx) (ORec (OLeaf c d2) tb false None None) w1 = (Ok (o2, record_form s2 (Some ty2)), w2) ->
  file_at (w_fs w2) (location (s_cwd E) dir ++ comps ++ cs) = Some x2 /\
  (forall q, q <> location (s_cwd E) dir ++ comps ++ cs -> file_at (w_fs w2) q = file_at (w_fs w) q) /\
  forall E2 m cx2 w3,
    absolute (s_cwd E2) -> s_limit E2 = None -> well_formed (w_fs w3) -> context_at E2 w3 cx2 dir comps ->
    file_at (w_fs w3) (location (s_cwd E) dir ++ comps ++ cs) = Some x2 -> (forall k, s_read E2 c k x2 = Ok d2) ->
    forall s ty, (s, ty) = (s1, ty1) \/ (s, ty) = (s2, ty2) -> sto_ty E2 ty = Some (STLeaf c) ->
    exists o3 o4 w4, deserialize E2 (S m) (Some cx2) (record_form s (Some ty)) w3 = (Ok o3, w3) /\
      content_of E2 m o3 w3 = (Ok (OLeaf c d2, o4), w4).
Proof.
  intros E n1 n2 cx dir comps c d1 d2 ta tb ta1 tb1 cs w wa wb o1 o2 s1 s2 ty1 ty2 w1 w2 x1 x2 Hc Hd Hw Hre Hcx Hx1 Hx2 Hta Hpa Hs1 Htb Hpb Hs2.
  destruct (context_at_ok E w cx dir comps Hc Hd Hw Hcx) as [Hok Hs].
  assert (Hu : In (s_retouch E) unattended) by (rewrite Hre; right; right; left; reflexivity).
  assert (Hna : s_retouch E <> $"auto") by (rewrite Hre; discriminate).
  destruct (leaf_written E n1 cx dir comps c d1 ta ta1 cs None None w wa o1 s1 ty1 w1 x1 Hc Hd Hok Hs Hu Hta Hpa Hx1 Hs1) as (l1 & A1 & A2' & A3 & A4 & A5 & A6). pose proof (fun Hx => A2' (or_introl Hx)) as A2.
  destruct (leaf_written E n2 cx dir comps c d2 tb tb1 cs None None w1 wb o2 s2 ty2 w2 x2 Hc Hd A5 Hs Hu Htb Hpb Hx2 Hs2) as (l2 & B1 & B2' & B3 & B4 & B5 & B6). pose proof (fun Hx => B2' (or_introl Hx)) as B2.
  rewrite (A2 Hna) in *. rewrite (B2 Hna) in *. split; [exact B3|]. split; [intros q Hq; rewrite B4, A4 by assumption; reflexivity|].
  intros E2 m cx2 w3 Hc2 Hl2 Hw3 Hcx2 Hf Hrd s ty Hst Hty.
  destruct (context_at_ok E2 w3 cx2 dir comps Hc2 Hd Hw3 Hcx2) as [Hok2 Hsc2].
  destruct Hst as [Hst|Hst]; injection Hst as -> ->.
  - destruct (A6 E2 m cx2 w3 x2 d2 Hc2 Hl2 Hok2 Hsc2 Hf Hty Hrd) as (o3 & o4 & w4 & R1 & R2 & _). eauto.
  - destruct (B6 E2 m cx2 w3 x2 d2 Hc2 Hl2 Hok2 Hsc2 Hf Hty Hrd) as (o3 & o4 & w4 & R1 & R2 & _). eauto.
Qed.
Example C46_example :
  let E := ex_env "ignore" false None in
  let t := mkTarget (Some []) (Some ($"x")) None in
  let w := snd (open_context ex_opts ($"k") ex_world) in
  context_at E w (mkCtx 0 []) ($"/proj/.dman/gen/k") [] /\
  exists t1 wa o1 w1 t2 wb o2 w2,
    rec_target E (OLeaf 0 ($"one")) t w = (Ok t1, wa) /\ places t1 [$"x.bin"] /\
    serialize E 3 (Some (mkCtx 0 [])) (ORec (blob "one") t false None None) w = (Ok (o1, record_form ($"x.bin") (Some ($"_sto__blob"))), w1) /\
    rec_target E (OLeaf 0 ($"two")) t w1 = (Ok t2, wb) /\ places t2 [$"x.bin"] /\
    serialize E 3 (Some (mkCtx 0 [])) (ORec (blob "two") t false None None) w1 = (Ok (o2, record_form ($"x.bin") (Some ($"_sto__blob"))), w2) /\
    file_at (w_fs w2) ([$"proj"; $".dman"; $"gen"; $"k"; $"x.bin"]) = Some (Text ($"two")).
Proof.
  cbn zeta. split.
  - exists (new_mount ($"/proj/.dman/gen/k") true true). split; [reflexivity|]. split; [|split; [reflexivity|constructor]].
    exists (Dir []), true, true, [], (Dir []). split; [constructor|reflexivity].
  - let E := constr:(ex_env "ignore" false None) in
    let t := constr:(mkTarget (Some []) (Some ($"x")) None) in
    let w := eval vm_compute in (snd (open_context ex_opts ($"k") ex_world)) in
    let r1 := eval vm_compute in (rec_target E (OLeaf 0 ($"one")) t w) in
    let v1 := eval vm_compute in (serialize E 3 (Some (mkCtx 0 [])) (ORec (blob "one") t false None None) w) in
    match r1 with (Ok ?t1, ?wa) => match v1 with (Ok (?o1, _), ?w1) =>
      let r2 := eval vm_compute in (rec_target E (OLeaf 0 ($"two")) t w1) in
      let v2 := eval vm_compute in (serialize E 3 (Some (mkCtx 0 [])) (ORec (blob "two") t false None None) w1) in
      match r2 with (Ok ?t2, ?wb) => match v2 with (Ok (?o2, _), ?w2) =>
        exists t1, wa, o1, w1, t2, wb, o2, w2 end end end end.
    repeat split; try (vm_compute; reflexivity);
      (exists [], ($"x.bin"); repeat split; try discriminate;
       [intros Hin; cbn in Hin; repeat (destruct Hin as [Hin|Hin]; [discriminate|]); exact Hin
       |intros [r Hx]; discriminate
       |intros Hin; cbn in Hin; repeat (destruct Hin as [Hin|Hin]; [discriminate|]); exact Hin]).
Qed.
(** The whole way: an mlist of two records saved and loaded. *)
Example C46_saved_and_loaded :
  let E := ex_env "ignore" false None in
  let m := OSeq (mkSeq false [] false None) [rec_of (blob "one") "x"; rec_of (blob "two") "x"] [] in
  match save E 10 ex_opts ($"k") m ex_world with
  | (Ok _, w) => match load E 10 ex_opts ($"k") None None w with
                 | (Ok (OSeq _ [a; b] _), w2) =>
                     match content_of E 10 a w2, content_of E 10 b w2 with
                     | (Ok (x, _), _), (Ok (y, _), _) => x = blob "two" /\ y = blob "two"
                     | _, _ => False
                     end
                 | _ => False
                 end
  | _ => False
  end.
Proof. vm_compute. split; reflexivity. Qed.

Print Assumptions C46_ignore_loses_first.
Print Assumptions C47_slash_key.
Print Assumptions C48_default_iff_no_file.
Print Assumptions C48_existing_file_wins.
