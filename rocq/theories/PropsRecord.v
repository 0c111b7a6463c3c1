(** Records: C30, C32. *)
From Coq Require Import List Ascii String Bool Arith ZArith Lia.
From Verif Require Import Base PosixModel FsModel PathModel SerialModel StoreModel StoreFrame StoreMount StoreSpec StoreLocal StorePlace
     StoreRecord StoreExample PathSpec MountSpec DirSpec PosixProof FsProof DirProof TargetProof MountProof HistoryProof PathFacts.
Import ListNotations.

Ltac fin := repeat match goal with |- _ /\ _ => split end; try reflexivity; try (intros; congruence).

(** ** C30 *)
(** The target of a record made by [record(content, stem=, suffix=, name=, subdir=)]: given parts are kept, a
    missing stem is the next uuid, a missing suffix the usual one for the content; computing it changes
    nothing but the supply of uuids, and from then on it is the target whatever the content. *)
Theorem C30_record_target : forall E content stem suffix name subdir pre o w,
  new_record content stem suffix name subdir pre = Ok o ->
  (exists x, usual_suffix E content x) ->
  exists t t' w' d s x, o = ORec content t pre None None /\ rec_target E content t w = (Ok t', w') /\
    t' = mkTarget (Some d) (Some s) (Some x) /\
    d = match subdir with Some d => d | None => $"" end /\
    (forall n, name = Some n -> s ++ x = n) /\
    (forall a, stem = Some a -> s = a) /\ (stem = None -> name = None -> s = s_uuid E (w_uuid w)) /\
    (forall b, suffix = Some b -> x = b) /\ (suffix = None -> name = None -> usual_suffix E content x) /\
    (w_fs w' = w_fs w /\ w_mounts w' = w_mounts w /\ w_log w' = w_log w) /\
    (stem = None -> name = None -> w_uuid w < w_uuid w') /\
    (forall content2 w2, rec_target E content2 t' w2 = (Ok t', w2)).
Proof.
  intros E content stem suffix name subdir pre o w Ho [x0 Hx]. unfold new_record, Target in Ho.
  assert (Hsuf : usual_suffix E content (match ext_of E content with Some x => x | None => if json_like E content then $".json" else s_suffix E end)).
  { destruct Hx as [c d j x Hk|c d Hk|c d Hk|c fs u|q s u|p s u]; cbn; try constructor.
    - rewrite Hk. econstructor. exact Hk.
    - rewrite Hk. apply us_dataclass. assumption.
    - rewrite Hk. apply us_other. assumption. }
  destruct name as [n|].
  - destruct stem as [a|]; [discriminate|]. destruct suffix as [b|]; [discriminate|].
    pose proof (splitext_app n) as Hs. destruct (splitext n) as [st su] eqn:En. cbn [bind fst snd] in *. injection Ho as <-.
    eexists. destruct subdir as [d|].
    + exists (mkTarget (Some d) (Some st) (Some su)), w, d, st, su. fin.
    + unfold rec_target, is_complete, m_uuid, mbind, ret. cbn [t_subdir t_stem t_suffix].
      exists (mkTarget (Some []) (Some st) (Some su)). eexists. exists [], st, su. fin.
  - cbn [bind] in Ho. injection Ho as <-. eexists.
    destruct (is_complete (mkTarget subdir stem suffix)) eqn:Ec.
    + destruct subdir as [d|]; [|discriminate]. destruct stem as [a|]; [|discriminate]. destruct suffix as [b|]; [|discriminate].
      exists (mkTarget (Some d) (Some a) (Some b)), w, d, a, b. fin.
    + unfold rec_target. rewrite Ec. unfold m_uuid, mbind, ret.
      destruct (ext_of E content) as [e|] eqn:Ee; destruct subdir as [d|], stem as [a|], suffix as [b|]; try discriminate Ec;
        cbn [merge merge2 merge_part t_subdir t_stem t_suffix w_uuid w_fs w_mounts w_log];
        eexists _, _, _, _, _; (split; [reflexivity|]); (split; [reflexivity|]); (split; [reflexivity|]); cbn [w_uuid w_fs w_mounts w_log]; fin; intros; (exact Hsuf || lia).
Qed.
Example C30_example :
  let E := ex_env "auto" false None in
  (exists x, usual_suffix E (blob "b") x) /\
  exists t, new_record (blob "b") None None None (Some ($"sub")) false = Ok (ORec (blob "b") t false None None) /\
    fst (rec_target E (blob "b") t ex_world) = Ok (mkTarget (Some ($"sub")) (Some ($"uuid0")) (Some ($".bin"))).
Proof.
  cbn zeta. split; [exists ($".bin"); eapply us_ext; reflexivity|]. eexists. split; [reflexivity|]. vm_compute. reflexivity.
Qed.

(** ** C32 *)
(** Deserializing data in which nothing is marked for preloading touches neither the file system nor any mount:
    the state, with the list of file operations, is the one before. *)
Theorem C32_deserialize_touches_nothing : forall E n cx p w r w',
  no_preload p -> deserialize E n cx p w = (r, w') -> w' = w.
Proof. intros E n cx p w r w' Hp H. pose proof (de_quiet E n cx None p Hp w) as Hs. unfold deserialize in H. rewrite H in Hs. exact Hs. Qed.
(** So loading a key looks at one file only, the json of the key. *)
Lemma location_sub_nil cwd d x : location cwd (join2 (join2 d []) x) = location cwd (join2 d x).
Proof.
  rewrite !location_join2_any. destruct (isabs x); [reflexivity|]. cbn [isabs split_sep]. reflexivity.
Qed.
Theorem C32_load_reads_one_file : forall E n p k d df w o w' j,
  let l := requested (s_cwd E) (key_dir p k) (k ++ $".json") in
  absolute (s_cwd E) -> file_at (w_fs w) l = Some (Json j) -> no_preload (of_json j) ->
  load E n p k d df w = (Ok o, w') ->
  exists i, w_log w' = EvClose i :: EvRead l :: EvStat l :: w_log w.
Proof.
  intros E n p k d df w o w' j l Hc Hf Hp H. unfold load in H.
  apply mbind_ok in H as (cx & w1 & H1 & H). unfold open_context in H1. injection H1 as <- <-.
  apply mbind_ok in H as (dir & w1 & H1 & H). unfold ctx_dir, mbind, m_dir_of, ret in H1. cbn [c_mnt c_sub w_mounts] in H1.
  rewrite nth_error_app2, Nat.sub_diag in H1 by lia. cbn [nth_error new_mount m_dir] in H1. injection H1 as <- <-.
  cbn zeta in H. rewrite os_loc_location, location_sub_nil, <- requested_join2 in H by assumption. fold l in H.
  apply mbind_ok in H as (e & w1 & H1 & H). unfold m_exists in H1. apply op_cases in H1 as [(H1 & _)|H1]; [discriminate|].
  injection H1 as <- <-. unfold exists_at in H. cbn [logged w_fs] in H.
  assert (Hl : lookup (w_fs w) l = Some (File (Json j))).
  { unfold file_at in Hf. destruct (lookup (w_fs w) l) as [[]|]; congruence. }
  rewrite Hl in H.
  apply mbind_ok in H as (v & w1 & H1 & H). apply mbind_ok in H1 as (c & w2 & H2 & H1).
  apply m_read_inv in H2 as [[H2 _]|[-> H2]]; [discriminate|]. cbn [logged w_fs] in H2. rewrite Hl in H2. injection H2 as ->.
  apply C32_deserialize_touches_nothing in H1; [|assumption]. subst w1.
  apply mbind_ok in H as (u & w1 & H1 & H). unfold ret in H. injection H as <- <-.
  unfold close_context in H1. apply op_cases in H1 as [(H1 & _)|H1]; [discriminate|]. eexists.
  cbn [logged w_mounts c_mnt w_fs] in H1. destruct (nth_error _ _); [|discriminate]. destruct (mount_close _ _ _); [|discriminate].
  injection H1 as _ <-. reflexivity.
Qed.
(** An unloaded record: serializing it again into the directory it was read from touches nothing and gives the
    form it was read from. *)
Theorem C32_reserialize_touches_nothing : forall E n m cx w dir s ty,
  ctx_dir cx w = (Ok dir, w) -> join2 (fst (path_split s)) (snd (path_split s)) = s ->
  exists o, deserialize E (S n) (Some cx) (record_form s ty) w = (Ok o, w) /\
  forall cx' w', ctx_dir cx' w' = (Ok dir, w') ->
    serialize E (S m) (Some cx') o w' = (Ok (o, record_form s ty), w').
Proof.
  intros E n m cx w dir s ty Hd Hs.
  pose proof (proper_from_path s Hs) as Hf.
  exists (ORec (OUnloaded ty (from_path s) dir cx) (from_path s) false None None). split; [apply de_record_form; assumption|].
  - intros cx' w' Hd'. unfold serialize. cbn [depth f_ser]. unfold ser_body, ser_method, mbind, attempt, ser_rec, rec_store, mbind.
    rewrite Hd'. destruct (str_eq_dec dir dir); [|congruence]. cbn [negb andb]. unfold ret. rewrite Hf. cbn. destruct ty; reflexivity.
Qed.
(** The forms that serializing a record produces satisfy the condition on the target path, if collisions are
    settled without the user. *)
Theorem C32_serialized_targets_proper : forall E n cx comps dir content t we re w o s ty w',
  absolute (s_cwd E) -> absolute dir -> well_formed (w_fs w) -> In (s_retouch E) unattended -> context_at E w cx dir comps ->
  (forall a b c d, content <> OUnloaded a b c d) ->
  serialize E n (Some cx) (ORec content t false we re) w = (Ok (o, record_form s ty), w') ->
  join2 (fst (path_split s)) (snd (path_split s)) = s.
Proof.
  intros E n cx comps dir content t we re w o s ty w' Hc Hd Hw Hu Hcx Hload H.
  destruct (context_at_ok E w cx dir comps Hc Hd Hw Hcx) as [Hok Hs].
  apply serialize_rec in H as (k & -> & [(q & Hp & H)|(e & _ & _ & _ & Hp & _)]).
  2:{ exfalso. unfold record_form, typed in Hp. apply (f_equal (fun p => match p with PDict ((_, PAtom (AStr a)) :: _) => a | _ => [] end)) in Hp.
      vm_compute in Hp. discriminate. }
  apply ser_rec_loaded in H as (dir0 & w0 & t' & w1 & out & we' & c' & _ & _ & Ht & Hcw & -> & Hq); [|exact Hload].
  apply rec_target_still in Ht as (ku & -> & _). apply (ctx_write_name E (c_mnt cx) dir Hc Hd Hu _ _ comps) in Hcw as (z & Hz & Hpr & _); [|exact Hok|exact Hs].
  rewrite Hz in Hq. unfold record_form, typed in Hp. injection Hp as Hp. rewrite Hq in Hp. injection Hp as -> _. exact Hpr.
Qed.
Example C32_example :
  let E := ex_env "auto" false None in
  let w := snd (open_context ex_opts ($"k") ex_world) in
  let cx := mkCtx 0 [] in
  no_preload (record_form ($"sub/uuid0.bin") (Some ($"_sto__blob"))) /\
  ctx_dir cx w = (Ok ($"/proj/.dman/gen/k/"), w) /\
  fst (path_split ($"sub/uuid0.bin")) = $"sub" /\
  context_at E w cx ($"/proj/.dman/gen/k") [] /\
  exists o s w', serialize E 3 (Some cx) (rec_of (blob "b") "x") w = (Ok (o, record_form s (Some ($"_sto__blob"))), w').
Proof.
  cbn zeta. split; [|split; [reflexivity|split; [reflexivity|split]]].
  - intros d Hd Hi. unfold record_form in Hd.
    repeat match goal with
    | H : part_of _ (PDict _) |- _ => inversion H; clear H; subst
    | H : part_of _ (PAtom _) |- _ => inversion H; clear H; subst
    | H : In _ (_ :: _) |- _ => destruct H as [H|H]; [try discriminate H; injection H; clear H; intros; subst|]
    | H : In _ [] |- _ => destruct H
    end; try discriminate.
  - exists (new_mount ($"/proj/.dman/gen/k") true true). split; [reflexivity|]. split; [|split; [reflexivity|constructor]].
    exists (Dir []), true, true, [], (Dir []). split; [constructor|reflexivity].
  - let v := eval vm_compute in (serialize (ex_env "auto" false None) 3 (Some (mkCtx 0 [])) (rec_of (blob "b") "x") (snd (open_context ex_opts ($"k") ex_world))) in
    match v with (Ok (?o, _), ?w') => exists o, ($"x.bin"), w' end. vm_compute. reflexivity.
Qed.

(** ** C31 *)
(** No path given out by the mount so far is [rest]. *)
Definition unclaimed (w : world) (cx : ctx) (rest : list str) : Prop :=
  forall m v r, nth_error (w_mounts w) (c_mnt cx) = Some m -> In v (m_touched m) -> rel_target v r -> r <> rest.
Lemma leaf_written E n cx dir comps c d t t1 cs we re w w1 o s ty w' x :
  absolute (s_cwd E) -> absolute dir -> mnt_ok (c_mnt cx) dir w -> sctx (c_mnt cx) comps cx -> In (s_retouch E) unattended ->
  rec_target E (OLeaf c d) t w = (Ok t1, w1) -> places t1 cs ->
  (forall k, s_write E c k d = (Some x, None)) ->
  serialize E n (Some cx) (ORec (OLeaf c d) t false we re) w = (Ok (o, record_form s (Some ty)), w') ->
  exists l, inside l (location (s_cwd E) dir ++ comps) /\ (s_retouch E <> $"auto" \/ unclaimed w cx (comps ++ cs) -> l = location (s_cwd E) dir ++ comps ++ cs) /\
    file_at (w_fs w') l = Some x /\ (forall q, q <> l -> file_at (w_fs w') q = file_at (w_fs w) q) /\ mnt_ok (c_mnt cx) dir w' /\
    forall E2 m cx2 w2 x2 d2,
      absolute (s_cwd E2) -> s_limit E2 = None -> mnt_ok (c_mnt cx2) dir w2 -> sctx (c_mnt cx2) comps cx2 ->
      file_at (w_fs w2) l = Some x2 -> sto_ty E2 ty = Some (STLeaf c) -> (forall k, s_read E2 c k x2 = Ok d2) ->
      exists o2 o3 w3, deserialize E2 (S m) (Some cx2) (record_form s (Some ty)) w2 = (Ok o2, w2) /\
        content_of E2 m o2 w2 = (Ok (OLeaf c d2, o3), w3) /\ (forall q, file_at (w_fs w3) q = file_at (w_fs w2) q) /\
        content_of E2 m o3 w3 = (Ok (OLeaf c d2, o3), w3).
Proof.
  intros Hc Hd Hok Hs Hu Ht1 Hp Hx H. pose proof H as Hser.
  apply serialize_rec in H as (k & -> & [(q & Hq & H)|(e & _ & _ & _ & Hq & _)]).
  2:{ exfalso. unfold record_form, typed in Hq. apply (f_equal (fun p => match p with PDict ((_, PAtom (AStr a)) :: _) => a | _ => [] end)) in Hq.
      vm_compute in Hq. discriminate. }
  apply ser_rec_loaded in H as (dir0 & w0 & t' & w1' & out & we' & c' & _ & _ & Ht & Hcw & -> & Hq'); [|intros ? ? ? ? Hxx; discriminate].
  rewrite Ht1 in Ht. injection Ht as <- <-. apply rec_target_still in Ht1 as (ku & -> & _).
  apply (ctx_write_inv E (c_mnt cx) dir Hc Hd Hu _ _ comps _ cs) in Hcw as (p & u & n' & w2 & local & Hn' & Hg & Hok2 & Hpl & (z & Hz1 & Hz2 & Hz3) & Hsl & Hwr); [|exact Hok|exact Hs|exact Hp].
  rewrite Hz1 in Hq'. unfold record_form, typed in Hq. injection Hq as Hq. rewrite Hq' in Hq. injection Hq as Hsz Hty Hexc. subst z.
  destruct Hg as (m & touched & fs' & G1 & G2 & G3 & G4 & G5 & G6 & G7 & G8 & G9 & G10).
  destruct Hwr as [[-> Hwr]|(-> & _)]; [|discriminate Hexc].
  apply (write_leaf _ _ _ _ _ _ x) in Hwr as (-> & Hmo & Hfs); [|exact Hx].
  exists (location (s_cwd E) dir ++ comps ++ removelast cs ++ [n']). split; [|split; [|split; [|split; [|split]]]].
  - exists (removelast cs ++ [n']). rewrite <- app_assoc. reflexivity.
  - intros [Hna|Hun]; [destruct G5 as [_ G5]; rewrite G5; [reflexivity|exact Hna]|]. destruct G10 as [_ G10]. rewrite G10; [reflexivity|].
    intros v r Hv Hr. exact (Hun m v r G1 Hv Hr).
  - rewrite Hfs. destruct (loc_eq_dec _ _); [reflexivity|congruence].
  - intros q1 Hq1. rewrite Hfs. destruct (loc_eq_dec q1 _); [congruence|]. rewrite G6. cbn [w_fs]. rewrite G7. reflexivity.
  - pose proof (on_ser E (c_mnt cx) dir Hc Hd Hu (fun _ => True) (fun _ _ => I) (S k) cx comps (ORec (OLeaf c d) t false we re) Hs w Hok) as Hons.
    rewrite Hser in Hons. apply Hons. assumption.
  - intros E2 mm cx2 w3 x2 d2 Hc2 Hl2 Hok3 Hs3 Hf2 Hty2 Hrd.
    assert (Hlt : (exists t, places t (removelast cs ++ [n'])) ) by eauto.
    rewrite <- Hz3 in Hpl.
    rewrite (location_any_cwd (s_cwd E) (s_cwd E2) dir Hd) in Hf2, G9.
    destruct (ctx_read_leaf E2 (c_mnt cx2) dir (depth E2 mm) cx2 comps (from_path s) (removelast cs ++ [n']) w3 ty c x2 d2 Hc2 Hd Hl2 G9 Hok3 Hs3 Hpl Hf2 Hty2 Hrd) as (w4 & R1 & R2 & R3).
    assert (Hcd : exists d2, ctx_dir cx2 w3 = (Ok d2, w3)).
    { destruct Hok3 as [(m3 & M1 & M2 & _) _]. unfold ctx_dir, mbind, m_dir_of. rewrite M1. eexists. reflexivity. }
    destruct Hcd as [dd Hcd].
    eexists _, (ORec (OLeaf c d2) (from_path s) false None None), w4. split; [apply de_record_form; exact Hcd|]. split; [|split; [exact R3|reflexivity]].
    unfold content_of, rec_load. unfold mbind at 1. unfold mbind at 1. rewrite R1. reflexivity.
Qed.
(** A record whose content class has its own write and read method.  Serializing writes exactly what the class
    writes, to one file; no other file changes.  Deserializing the result later, in any state and process where
    that file still has this content, gives a record whose content, when accessed, equals the original.  Earlier
    failures ([we], [re]) make no difference. *)
Theorem C31_record_round_trip : forall E n cx dir comps c d t t1 cs we re w w1 o s ty w' x,
  absolute (s_cwd E) -> absolute dir -> well_formed (w_fs w) -> In (s_retouch E) unattended -> context_at E w cx dir comps ->
  rec_target E (OLeaf c d) t w = (Ok t1, w1) -> places t1 cs ->
  (forall k, s_write E c k d = (Some x, None)) ->
  serialize E n (Some cx) (ORec (OLeaf c d) t false we re) w = (Ok (o, record_form s (Some ty)), w') ->
  exists l, inside l (location (s_cwd E) dir ++ comps) /\ (s_retouch E <> $"auto" -> l = location (s_cwd E) dir ++ comps ++ cs) /\
    file_at (w_fs w') l = Some x /\ (forall q, q <> l -> file_at (w_fs w') q = file_at (w_fs w) q) /\
    forall E2 m cx2 w2,
      absolute (s_cwd E2) -> s_limit E2 = None -> well_formed (w_fs w2) -> context_at E2 w2 cx2 dir comps ->
      file_at (w_fs w2) l = Some x -> sto_ty E2 ty = Some (STLeaf c) -> (forall k, s_read E2 c k x = Ok d) ->
      exists o2 o3 w3, deserialize E2 (S m) (Some cx2) (record_form s (Some ty)) w2 = (Ok o2, w2) /\
        content_of E2 m o2 w2 = (Ok (OLeaf c d, o3), w3) /\ (forall q, file_at (w_fs w3) q = file_at (w_fs w2) q) /\
        content_of E2 m o3 w3 = (Ok (OLeaf c d, o3), w3).
Proof.
  intros E n cx dir comps c d t t1 cs we re w w1 o s ty w' x Hc Hd Hw Hu Hcx Ht1 Hp Hx H.
  destruct (context_at_ok E w cx dir comps Hc Hd Hw Hcx) as [Hok Hs].
  destruct (leaf_written E n cx dir comps c d t t1 cs we re w w1 o s ty w' x Hc Hd Hok Hs Hu Ht1 Hp Hx H) as (l & H1 & H2' & H3 & H4 & _ & H5). pose proof (fun Hx => H2' (or_introl Hx)) as H2.
  exists l. repeat (split; [assumption|]). intros E2 m cx2 w2 Hc2 Hl2 Hw2 Hcx2 Hf Hty Hrd.
  destruct (context_at_ok E2 w2 cx2 dir comps Hc2 Hd Hw2 Hcx2) as [Hok2 Hs2]. eapply H5; eassumption.
Qed.
Example C31_example :
  let E := ex_env "auto" false None in
  let w := snd (open_context ex_opts ($"k") ex_world) in
  (exists t1 w1, rec_target E (blob "b") (mkTarget (Some ($"sub")) (Some ($"x")) None) w = (Ok t1, w1) /\ places t1 [$"sub"; $"x.bin"]) /\
  (forall k, s_write E 0 k ($"b") = (Some (Text ($"b")), None)) /\ (forall k, s_read E 0 k (Text ($"b")) = Ok ($"b")) /\
  sto_ty E ($"_sto__blob") = Some (STLeaf 0) /\
  exists o w', serialize E 3 (Some (mkCtx 0 [])) (ORec (blob "b") (mkTarget (Some ($"sub")) (Some ($"x")) None) false None None) w
    = (Ok (o, record_form ($"sub/x.bin") (Some ($"_sto__blob"))), w').
Proof.
  cbn zeta. split.
  - eexists _, _. split; [reflexivity|]. exists ($"sub"), ($"x.bin"). repeat split; try discriminate.
    + intros [H|[H|[H|[H|[H|[]]]]]]; discriminate.
    + intros [r H]. discriminate.
    + intros [H|[]]. discriminate.
  - repeat (split; [reflexivity|]).
    let v := eval vm_compute in (serialize (ex_env "auto" false None) 3 (Some (mkCtx 0 [])) (ORec (blob "b") (mkTarget (Some ($"sub")) (Some ($"x")) None) false None None) (snd (open_context ex_opts ($"k") ex_world))) in
    match v with (Ok (?o, _), ?w') => exists o, w' end. vm_compute. reflexivity.
Qed.

(** ** C33 *)
(** Serializing an unloaded record into another directory: it is read from the old place and written under the
    same relative target (with another name if that is taken); every other file, in particular the old one
    if it is another file, stays as it was. *)
Theorem C33_move_copies : forall E n cx0 dir0 comps0 base cx dir comps here ty s cs c x d x2 w o s2 ty2 w',
  absolute (s_cwd E) -> absolute dir0 -> absolute dir -> no_dotdot dir0 -> well_formed (w_fs w) -> In (s_retouch E) unattended -> s_limit E = None ->
  context_at E w cx0 dir0 comps0 -> context_at E w cx dir comps ->
  ctx_dir cx w = (Ok here, w) -> base <> here ->
  places (from_path s) cs -> sto_ty E ty = Some (STLeaf c) ->
  file_at (w_fs w) (location (s_cwd E) dir0 ++ comps0 ++ cs) = Some x ->
  (forall k, s_read E c k x = Ok d) -> (forall k, s_write E c k d = (Some x2, None)) ->
  serialize E n (Some cx) (ORec (OUnloaded (Some ty) (from_path s) base cx0) (from_path s) false None None) w = (Ok (o, record_form s2 ty2), w') ->
  exists n', let l := location (s_cwd E) dir ++ comps ++ removelast cs ++ [n'] in
    (s_retouch E <> $"auto" -> l = location (s_cwd E) dir ++ comps ++ cs) /\
    file_at (w_fs w') l = Some x2 /\ (forall q, q <> l -> file_at (w_fs w') q = file_at (w_fs w) q) /\
    ty2 = Some ty /\ o = ORec (OLeaf c d) (from_path s2) false None None.
Proof.
  intros E n cx0 dir0 comps0 base cx dir comps here ty s cs c x d x2 w o s2 ty2 w' Hc Hd0 Hd Hnd Hw Hu Hl Hcx0 Hcx Hhere Hb Hp Hty Hf Hrd Hwr H.
  destruct (context_at_ok E w cx0 dir0 comps0 Hc Hd0 Hw Hcx0) as [Hok0 Hs0].
  destruct (context_at_ok E w cx dir comps Hc Hd Hw Hcx) as [Hok Hs].
  pose proof (location_no_dotdot (s_cwd E) dir0 Hd0 (no_dotdot_comps dir0 Hnd)) as HD0.
  apply serialize_rec in H as (k & -> & [(q & Hq & H)|(e & _ & _ & _ & Hq & _)]).
  2:{ exfalso. unfold record_form, typed in Hq. apply (f_equal (fun p => match p with PDict ((_, PAtom (AStr a)) :: _) => a | _ => [] end)) in Hq.
      vm_compute in Hq. discriminate. }
  destruct (ctx_read_leaf E (c_mnt cx0) dir0 (depth E k) cx0 comps0 (from_path s) cs w ty c x d Hc Hd0 Hl HD0 Hok0 Hs0 Hp Hf Hty Hrd) as (w1 & R1 & R2 & R3).
  pose proof (R2 (c_mnt cx) dir Hd Hok) as Hok1.
  unfold ser_rec in H. apply mbind_ok in H as ([[[out c'] we'] re'] & w2 & Hst & H). unfold ret in H. injection H as <- <- <-.
  unfold rec_store in Hst. apply mbind_ok in Hst as (h & w3 & H1 & Hst). rewrite Hhere in H1. injection H1 as <- <-.
  destruct (str_eq_dec base here) as [|_]; [congruence|]. cbn [negb andb orb rec_load] in Hst.
  apply mbind_ok in Hst as ([[v c1] re1] & w3 & H1 & Hst). apply mbind_ok in H1 as (v0 & w4 & H1 & H2). rewrite R1 in H1. injection H1 as <- <-.
  unfold ret in H2. injection H2 as <- <- <- <-.
  assert (Hcompl : is_complete (from_path s) = true).
  { destruct Hp as (sd & nm & P1 & P2 & _). destruct (from_path s) as [a b cc]. cbn in P1. subst a. unfold t_name in P2. cbn in P2.
    destruct b; [|discriminate]. destruct cc; [reflexivity|discriminate]. }
  unfold rec_target in Hst. rewrite Hcompl in Hst. apply mbind_ok in Hst as (t' & w3 & H1 & Hst). unfold ret in H1. injection H1 as <- <-.
  apply mbind_ok in Hst as ([[out1 we1] c2] & w3 & Hcw & Hst). unfold ret in Hst. injection Hst as <- <- <- <- <-.
  apply (ctx_write_inv E (c_mnt cx) dir Hc Hd Hu _ _ comps _ cs) in Hcw as (p & u & n' & w5 & local & Hn' & Hg & Hok2 & Hpl & (z & Hz1 & Hz2 & Hz3) & Hsl & Hwrt); [|exact Hok1|exact Hs|exact Hp].
  rewrite Hz1 in Hq. unfold record_form, typed in Hq. cbn [rec_sto_type opt_str] in Hq. injection Hq as Hsz Hty2 Hexc. subst z.
  destruct Hg as (m & touched & fs' & G1 & G2 & G3 & G4 & G5 & G6 & G7 & G8 & G9 & _).
  destruct Hwrt as [[-> Hwrt]|(-> & _)]; [|discriminate Hexc].
  apply (write_leaf _ _ _ _ _ _ x2) in Hwrt as (-> & Hmo & Hfs); [|exact Hwr].
  exists n'. cbn zeta. split; [|split; [|split; [|split]]].
  - intros Hna. destruct G5 as [_ G5]. rewrite G5; [reflexivity|exact Hna].
  - rewrite Hfs. destruct (loc_eq_dec _ _); [reflexivity|congruence].
  - intros q1 Hq1. rewrite Hfs. destruct (loc_eq_dec q1 _); [congruence|]. rewrite G6. cbn [w_fs]. rewrite G7. apply R3.
  - destruct ty2; congruence.
  - rewrite Hz3. reflexivity.
Qed.

(** ** C34 *)
(** The user's write method raises.  Serializing still returns; the record keeps its content and the
    failure, which also goes into the serialized form; only the record's own file may differ. *)
Definition failed_form (s : str) (ty : option str) (m : mark) (pre : bool) (re : option exc) : pser :=
  typed n_record (PDict ([(key "target", PAtom (AStr s)); (key "sto_type", opt_str ty)] ++
     (if pre then [(key "preload", PAtom (ABool true))] else []) ++
     [(key "exceptions", PDict ((key "write", exc_pser (EMark m)) :: exc_entry "read" re))])).
Theorem C34_write_failure_contained : forall E n cx dir comps c d t t1 cs pre we re w w1,
  absolute (s_cwd E) -> absolute dir -> no_dotdot dir -> well_formed (w_fs w) -> s_limit E = None -> s_validate E = false ->
  In (s_retouch E) unattended -> s_retouch E <> $"quit" -> context_at E w cx dir comps ->
  rec_target E (OLeaf c d) t w = (Ok t1, w1) -> places t1 cs ->
  (forall q, inside (location (s_cwd E) dir ++ comps ++ removelast cs) q -> file_at (w_fs w) q = None) ->
  (forall k, exists left e, s_write E c k d = (left, Some e) /\ is_ser_error e = false /\ e <> UserQuitException) ->
  exists s n' w', let l := location (s_cwd E) dir ++ comps ++ removelast cs ++ [n'] in
    let m := mkMark MExcUnWritable (k_sto (s_class E c)) in
    serialize E (S n) (Some cx) (ORec (OLeaf c d) t pre we re) w =
      (Ok (ORec (OLeaf c d) (from_path s) pre (Some (EMark m)) re, failed_form s (k_sto (s_class E c)) m pre re), w') /\
    (s_retouch E <> $"auto" -> l = location (s_cwd E) dir ++ comps ++ cs) /\
    forall q, q <> l -> file_at (w_fs w') q = file_at (w_fs w) q.
Proof.
  intros E n cx dir comps c d t t1 cs pre we re w w1 Hc Hd Hnd Hw Hl Hv Hu Hnq Hcx Ht1 Hp Hfree Hwr.
  destruct (context_at_ok E w cx dir comps Hc Hd Hw Hcx) as [Hok Hs].
  pose proof (location_no_dotdot (s_cwd E) dir Hd (no_dotdot_comps dir Hnd)) as HD.
  pose proof Ht1 as Ht2. apply rec_target_still in Ht2 as (ku & Hw1 & _).
  destruct (ctx_write_fwd E (c_mnt cx) dir (depth E n) cx comps t1 cs (OLeaf c d) w1 Hc Hd Hl Hu Hnq HD) as (p & u & n' & w2 & local & out & Hn' & Hg & Hok2 & Hpl & (z & Hz1 & Hz2 & Hz3) & Hsl & Hcw);
    [rewrite Hw1; exact Hok|exact Hs|exact Hp| |].
  { intros q Hq. rewrite Hw1. cbn [w_fs]. apply Hfree. apply is_prefix_iff in Hq as [r Hr]. exists r. exact Hr. }
  set (l := location (s_cwd E) dir ++ comps ++ removelast cs ++ [n']) in *.
  assert (Hws : exists e w3, write_storable E (depth E n) local l (OLeaf c d) w2 = (Exn e, w3) /\ is_ser_error e = false /\ e <> UserQuitException /\
     forall q, q <> l -> file_at (w_fs w3) q = file_at (w_fs w2) q).
  { unfold write_storable. destruct (Hwr (List.length (w_log w2))) as (left & e & He & He1 & He2). rewrite He. destruct left as [x|].
    - unfold mbind. destruct (m_write E l x w2) as [[[]|e1] w3] eqn:Em; apply m_write_inv in Em.
      + exists e, w3. split; [reflexivity|]. split; [exact He1|]. split; [exact He2|]. inversion Em as [| |fs Hwf Hu0 Hw0]; subst.
        intros q Hq. cbn [set_fs w_fs]. rewrite (write_file_lookup _ _ _ _ Hwf). destruct (loc_eq_dec q l); [congruence|reflexivity].
      + inversion Em as [|e2 Hwf Hu0 Hw0|]; subst; [congruence|]. exists e1, (logged (EvWrite l) w2). split; [reflexivity|].
        destruct (write_file_errors _ _ _ _ Hwf) as [X1 X2]. split; [exact X1|]. split; [exact X2|]. intros q _. reflexivity.
    - exists e, w2. unfold mbind, ret, raise. auto. }
  destruct Hws as (e & w3 & Hws & He1 & He2 & Hfs). rewrite Hws, He1 in Hcw.
  assert (Hcw' : ctx_write E (depth E n) cx t1 (OLeaf c d) w1 = (Ok (out, Some (EMark (mkMark MExcUnWritable (k_sto (s_class E c)))), OLeaf c d), w3)).
  { rewrite Hcw. unfold mbind, invalid_found. rewrite Hv. unfold ret. cbn [sto_name]. destruct e; try reflexivity; congruence. }
  exists z, n', w3. fold l. cbn zeta. split; [|split].
  - unfold serialize. change (f_ser (depth E (S n))) with (ser_body E (depth E n)). unfold ser_body. cbn [ser_method].
    unfold mbind at 1. unfold attempt. unfold ser_rec. unfold mbind at 1. unfold rec_store. unfold mbind at 1.
    assert (Hcd : exists d2, ctx_dir cx w = (Ok d2, w)).
    { destruct Hok as [(m3 & M1 & M2 & _) _]. unfold ctx_dir, mbind, m_dir_of. rewrite M1. eexists. reflexivity. }
    destruct Hcd as [d2 Hcd]. rewrite Hcd. cbn [negb andb orb].
    match goal with |- context [if ?b && false then _ else _] => replace (b && false) with false by (destruct b; reflexivity) end.
    assert (Hld : (if (match we with Some _ => true | None => false end) then rec_load E (depth E n) (OLeaf c d) re else ret (OLeaf c d, OLeaf c d, re)) w = (Ok (OLeaf c d, OLeaf c d, re), w)) by (destruct we; reflexivity).
    unfold mbind at 1. rewrite Hld. unfold mbind at 1. rewrite Ht1. unfold mbind at 1. rewrite Hcw'. unfold ret. cbn [rec_sto_type sto_name].
    rewrite Hz1, <- Hz3. unfold failed_form, emit, typed. cbn [fst snd]. rewrite Hz3. destruct re; reflexivity.
  - intros Hna. destruct Hg as (m & touched & fs' & G1 & G2 & G3 & G4 & (_ & G5) & _). unfold l. rewrite G5; [reflexivity|exact Hna].
  - destruct Hg as (m & touched & fs' & G1 & G2 & G3 & G4 & G5 & G6 & G7 & _). intros q Hq. rewrite Hfs by assumption. rewrite G6. cbn [w_fs]. rewrite G7, Hw1. reflexivity.
Qed.
(** The next serialization of the record tries again: whatever failure the record carries, when the method now
    writes [x], the file holds [x] and the result carries no failure. *)
Theorem C34_next_serialize_writes : forall E n cx dir comps c d t t1 cs pre we re w w1 x o p w',
  absolute (s_cwd E) -> absolute dir -> well_formed (w_fs w) -> In (s_retouch E) unattended -> context_at E w cx dir comps ->
  rec_target E (OLeaf c d) t w = (Ok t1, w1) -> places t1 cs ->
  (forall k, s_write E c k d = (Some x, None)) -> s_validate E = true ->
  serialize E n (Some cx) (ORec (OLeaf c d) t pre we re) w = (Ok (o, p), w') ->
  exists n' s, let l := location (s_cwd E) dir ++ comps ++ removelast cs ++ [n'] in
    file_at (w_fs w') l = Some x /\ (forall q, q <> l -> file_at (w_fs w') q = file_at (w_fs w) q) /\
    o = ORec (OLeaf c d) (from_path s) pre None re.
Proof.
  intros E n cx dir comps c d t t1 cs pre we re w w1 x o p w' Hc Hd Hw Hu Hcx Ht1 Hp Hx Hv H.
  destruct (context_at_ok E w cx dir comps Hc Hd Hw Hcx) as [Hok Hs].
  apply serialize_rec in H as (k & -> & [(q & Hq & H)|(e & _ & Hv' & _)]); [|congruence].
  apply ser_rec_loaded in H as (dir0 & w0 & t' & w1' & out & we' & c' & _ & _ & Ht & Hcw & -> & Hq'); [|intros ? ? ? ? Hxx; discriminate].
  rewrite Ht1 in Ht. injection Ht as <- <-. apply rec_target_still in Ht1 as (ku & -> & _).
  apply (ctx_write_inv E (c_mnt cx) dir Hc Hd Hu _ _ comps _ cs) in Hcw as (p0 & u & n' & w2 & local & Hn' & Hg & Hok2 & Hpl & (z & Hz1 & Hz2 & Hz3) & Hsl & Hwr); [|exact Hok|exact Hs|exact Hp].
  destruct Hg as (m & touched & fs' & G1 & G2 & G3 & G4 & G5 & G6 & G7 & G8 & G9 & _).
  destruct Hwr as [[-> Hwr]|(_ & _ & Hv' & _)]; [|congruence].
  apply (write_leaf _ _ _ _ _ _ x) in Hwr as (-> & Hmo & Hfs); [|exact Hx].
  exists n', z. cbn zeta. split; [|split].
  - rewrite Hfs. destruct (loc_eq_dec _ _); [reflexivity|congruence].
  - intros q1 Hq1. rewrite Hfs. destruct (loc_eq_dec q1 _); [congruence|]. rewrite G6. cbn [w_fs]. rewrite G7. reflexivity.
  - rewrite Hz3. reflexivity.
Qed.

(** ** C35 *)
(** The file of an unloaded record is missing. *)
Theorem C35_missing_file : forall E n cx dir comps ty t cs base pre we re w,
  absolute (s_cwd E) -> absolute dir -> no_dotdot dir -> well_formed (w_fs w) -> s_limit E = None -> s_validate E = false ->
  context_at E w cx dir comps -> places t cs -> sto_ty E ty <> None ->
  let l := location (s_cwd E) dir ++ comps ++ cs in
  (forall q, inside l q -> file_at (w_fs w) q = None) -> is_dir (w_fs w) l = false ->
  exists w', content_of E n (ORec (OUnloaded (Some ty) t base cx) t pre we re) w =
      (Ok (OMark (mkMark MNoFile (Some ty)), ORec (OUnloaded (Some ty) t base cx) t pre we (Some (EMark (mkMark MNoFile (Some ty))))), w') /\
    forall q, file_at (w_fs w') q = file_at (w_fs w) q.
Proof.
  intros E n cx dir comps ty t cs base pre we re w Hc Hd Hnd Hw Hl Hv Hcx Hp Hty l Hf Hdir.
  destruct (context_at_ok E w cx dir comps Hc Hd Hw Hcx) as [Hok Hs].
  pose proof (location_no_dotdot (s_cwd E) dir Hd (no_dotdot_comps dir Hnd)) as HD.
  destruct (ctx_read_missing E (c_mnt cx) dir (depth E n) cx comps t cs w ty Hc Hd Hl Hv HD Hok Hs Hp) as (w' & R1 & _ & R3); [|exact Hdir|exact Hty|].
  { intros q Hq. apply Hf. apply is_prefix_iff in Hq as [r Hr]. exists r. exact Hr. }
  exists w'. split; [|exact R3]. unfold content_of, rec_load. unfold mbind at 1. unfold mbind at 1. rewrite R1. reflexivity.
Qed.
(** The user's read method raises [e]. *)
Theorem C35_read_raises : forall E n cx dir comps ty t cs base pre we re w c x e,
  absolute (s_cwd E) -> absolute dir -> no_dotdot dir -> well_formed (w_fs w) -> s_limit E = None -> s_validate E = false ->
  context_at E w cx dir comps -> places t cs -> sto_ty E ty = Some (STLeaf c) ->
  file_at (w_fs w) (location (s_cwd E) dir ++ comps ++ cs) = Some x ->
  (forall k, s_read E c k x = Exn e) -> is_ser_error e = false -> e <> FileNotFoundError ->
  exists w', content_of E n (ORec (OUnloaded (Some ty) t base cx) t pre we re) w =
      (Ok (OMark (mkMark MExcUnReadable (Some ty)), ORec (OUnloaded (Some ty) t base cx) t pre we (Some (EMark (mkMark MExcUnReadable (Some ty))))), w') /\
    forall q, file_at (w_fs w') q = file_at (w_fs w) q.
Proof.
  intros E n cx dir comps ty t cs base pre we re w c x e Hc Hd Hnd Hw Hl Hv Hcx Hp Hty Hf Hr He1 He2.
  destruct (context_at_ok E w cx dir comps Hc Hd Hw Hcx) as [Hok Hs].
  pose proof (location_no_dotdot (s_cwd E) dir Hd (no_dotdot_comps dir Hnd)) as HD.
  destruct (ctx_read_raises E (c_mnt cx) dir (depth E n) cx comps t cs w ty c x e Hc Hd Hl Hv HD Hok Hs Hp Hf Hty Hr He1 He2) as (w' & R1 & _ & R3).
  exists w'. split; [|exact R3]. unfold content_of, rec_load. unfold mbind at 1. unfold mbind at 1. rewrite R1. reflexivity.
Qed.
(** Such a record is reported as invalid, and as not existing in the first case; a later access reads again as
    if nothing had failed before. *)
Theorem C35_reported_and_retried : forall E n ty t base cx t' pre we m,
  let o := ORec (OUnloaded ty t base cx) t' pre we (Some (EMark m)) in
  rec_isvalid o = false /\ (mk_kind m = MNoFile -> rec_exists o = false) /\
  forall w, content_of E n o w = content_of E n (ORec (OUnloaded ty t base cx) t' pre we None) w.
Proof. intros E n ty t base cx t' pre we [k mt]. cbn. repeat split. intros ->. reflexivity. Qed.

(** ** C36 *)
(** A record read back with preload whose file is missing: it reports to exist and to be valid, although an access
    to its content finds no file. *)
Theorem C36_preload_hides_missing_file : forall E n cx dir comps ty s cs w,
  absolute (s_cwd E) -> absolute dir -> no_dotdot dir -> well_formed (w_fs w) -> s_limit E = None -> s_validate E = false ->
  context_at E w cx dir comps -> places (from_path s) cs -> sto_ty E ty <> None ->
  let l := location (s_cwd E) dir ++ comps ++ cs in
  (forall q, inside l q -> file_at (w_fs w) q = None) -> is_dir (w_fs w) l = false ->
  exists o w', deserialize E (S n) (Some cx) (preload_form s (Some ty)) w = (Ok o, w') /\
    rec_exists o = true /\ rec_isvalid o = true /\
    forall w2 m, context_at E w2 cx dir comps -> well_formed (w_fs w2) ->
      (forall q, file_at (w_fs w2) q = file_at (w_fs w) q) -> is_dir (w_fs w2) l = false ->
      exists o2 w3, content_of E m o w2 = (Ok (OMark (mkMark MNoFile (Some ty)), o2), w3) /\ rec_exists o2 = false /\ rec_isvalid o2 = false.
Proof.
  intros E n cx dir comps ty s cs w Hc Hd Hnd Hw Hl Hv Hcx Hp Hty l Hf Hdir.
  destruct (context_at_ok E w cx dir comps Hc Hd Hw Hcx) as [Hok Hs].
  pose proof (location_no_dotdot (s_cwd E) dir Hd (no_dotdot_comps dir Hnd)) as HD.
  destruct (ctx_read_missing E (c_mnt cx) dir (depth E n) cx comps (from_path s) cs w ty Hc Hd Hl Hv HD Hok Hs Hp) as (w' & R1 & _ & R3); [|exact Hdir|exact Hty|].
  { intros q Hq. apply Hf. apply is_prefix_iff in Hq as [r Hr]. exists r. exact Hr. }
  assert (Hcd : exists d2, ctx_dir cx w = (Ok d2, w)).
  { destruct Hok as [(m3 & M1 & M2 & _) _]. unfold ctx_dir, mbind, m_dir_of. rewrite M1. eexists. reflexivity. }
  destruct Hcd as [d2 Hcd]. eexists _, w'. split.
  { rewrite (de_preload_form E n cx w d2 s (Some ty) Hcd). unfold rec_load. unfold mbind at 1. rewrite R1. unfold ret. reflexivity. }
  cbn [fst snd rec_exists rec_isvalid]. split; [reflexivity|]. split; [reflexivity|].
  intros w2 m Hcx2 Hw2 Hsame Hd2.
  destruct (C35_missing_file E m cx dir comps ty (from_path s) cs d2 true None None w2 Hc Hd Hnd Hw2 Hl Hv Hcx2 Hp Hty) as (w3 & H1 & _).
  { intros q Hq. rewrite Hsame. apply Hf. exact Hq. }
  { exact Hd2. }
  eexists _, w3. split; [exact H1|]. split; reflexivity.
Qed.
Lemma places_example : places (from_path ($"x.bin")) [$"x.bin"].
Proof.
  exists [], ($"x.bin"). repeat split; try discriminate; try (intros [r H]; discriminate).
  - intros [H|[H|[H|[H|[H|[]]]]]]; discriminate.
  - intros [H|[]]. discriminate.
Qed.
Lemma two_contexts E : s_cwd E = $"/proj" -> context_at E ex_two (mkCtx 0 []) ($"/proj/.dman/gen/k") [] /\ context_at E ex_two (mkCtx 1 []) ($"/proj/.dman/gen/m") [].
Proof.
  intros HE. split; eexists; (split; [reflexivity|]); (split; [|split; [reflexivity|constructor]]);
    exists (Dir []), true, true, [], (Dir []); split; constructor.
Qed.
Lemma no_file_above (fs : node) (l : loc) : forallb (fun k => match file_at fs (firstn k l) with None => true | Some _ => false end) (seq 0 (S (List.length l))) = true ->
  forall q, inside l q -> file_at fs q = None.
Proof.
  intros H q [r ->]. rewrite forallb_forall in H. specialize (H (List.length q)). rewrite firstn_app, firstn_all, Nat.sub_diag, app_nil_r in H.
  destruct (file_at fs q); [|reflexivity]. discriminate H. apply in_seq. rewrite app_length. lia.
Qed.
Example C33_example :
  let E := ex_env "auto" false None in
  context_at E ex_two (mkCtx 0 []) ($"/proj/.dman/gen/k") [] /\ context_at E ex_two (mkCtx 1 []) ($"/proj/.dman/gen/m") [] /\
  no_dotdot ($"/proj/.dman/gen/k") /\ ctx_dir (mkCtx 1 []) ex_two = (Ok ($"/proj/.dman/gen/m/"), ex_two) /\ places (from_path ($"x.bin")) [$"x.bin"] /\
  file_at (w_fs ex_two) (location ($"/proj") ($"/proj/.dman/gen/k") ++ [$"x.bin"]) = Some (Text ($"b")) /\
  exists o w', serialize E 3 (Some (mkCtx 1 [])) (ORec (OUnloaded (Some ($"_sto__blob")) (from_path ($"x.bin")) ($"/proj/.dman/gen/k/") (mkCtx 0 [])) (from_path ($"x.bin")) false None None) ex_two
    = (Ok (o, record_form ($"x.bin") (Some ($"_sto__blob"))), w').
Proof.
  cbn zeta. destruct (two_contexts (ex_env "auto" false None) eq_refl) as [C1 C2]. split; [exact C1|]. split; [exact C2|].
  split; [intros [H|[H|[H|[H|[H|[]]]]]]; discriminate|]. split; [reflexivity|]. split; [exact places_example|]. split; [reflexivity|].
  let v := eval vm_compute in (serialize (ex_env "auto" false None) 3 (Some (mkCtx 1 [])) (ORec (OUnloaded (Some ($"_sto__blob")) (from_path ($"x.bin")) ($"/proj/.dman/gen/k/") (mkCtx 0 [])) (from_path ($"x.bin")) false None None) ex_two) in
  match v with (Ok (?o, _), ?w') => exists o, w' end. vm_compute. reflexivity.
Qed.
(** A write method that leaves half of the data and raises. *)
Example C34_example :
  let E := with_methods (ex_env "auto" false None) (fun _ _ d => (Some (Text (firstn 1 d)), Some ValueError)) (fun _ _ _ => Exn ValueError) in
  context_at E ex_two (mkCtx 1 []) ($"/proj/.dman/gen/m") [] /\
  (forall q, inside (location ($"/proj") ($"/proj/.dman/gen/m") ++ [] ++ removelast [$"x.bin"]) q -> file_at (w_fs ex_two) q = None) /\
  (forall k, exists left e, s_write E 0 k ($"bb") = (left, Some e) /\ is_ser_error e = false /\ e <> UserQuitException) /\
  rec_target E (blob "bb") (from_path ($"x.bin")) ex_two = (Ok (from_path ($"x.bin")), ex_two) /\
  file_at (w_fs (snd (serialize E 3 (Some (mkCtx 1 [])) (ORec (blob "bb") (from_path ($"x.bin")) false None None) ex_two)))
     (location ($"/proj") ($"/proj/.dman/gen/m") ++ [$"x.bin"]) = Some (Text ($"b")).
Proof.
  cbn zeta. split; [apply two_contexts; reflexivity|]. split; [apply no_file_above; vm_compute; reflexivity|].
  split; [intros k; eexists _, _; split; [reflexivity|]; split; [reflexivity|discriminate]|]. split; [reflexivity|]. vm_compute. reflexivity.
Qed.
Example C35_example :
  let E := ex_env "auto" false None in
  let E2 := with_methods E (s_write E) (fun _ _ _ => Exn ValueError) in
  let r := ORec (OUnloaded (Some ($"_sto__blob")) (from_path ($"x.bin")) ($"/proj/.dman/gen/m/") (mkCtx 1 [])) (from_path ($"x.bin")) false None None in
  let r2 := ORec (OUnloaded (Some ($"_sto__blob")) (from_path ($"x.bin")) ($"/proj/.dman/gen/k/") (mkCtx 0 [])) (from_path ($"x.bin")) false None None in
  let l := location ($"/proj") ($"/proj/.dman/gen/m") ++ [] ++ [$"x.bin"] in
  (forall q, inside l q -> file_at (w_fs ex_two) q = None) /\ is_dir (w_fs ex_two) l = false /\
  (forall k, s_read E2 0 k (Text ($"b")) = Exn ValueError) /\
  match fst (content_of E 3 r ex_two), fst (content_of E2 3 r2 ex_two) with
  | Ok (OMark a, _), Ok (OMark b, _) => mk_kind a = MNoFile /\ mk_kind b = MExcUnReadable
  | _, _ => False
  end.
Proof.
  cbn zeta. split; [apply no_file_above; vm_compute; reflexivity|]. split; [vm_compute; reflexivity|]. split; [reflexivity|]. vm_compute. auto.
Qed.
Example C36_example :
  let E := ex_env "auto" false None in
  match fst (deserialize E 3 (Some (mkCtx 1 [])) (preload_form ($"x.bin") (Some ($"_sto__blob"))) ex_two) with
  | Ok o => rec_exists o = true /\ match fst (content_of E 3 o ex_two) with Ok (OMark _, o2) => rec_exists o2 = false | _ => False end
  | _ => False
  end.
Proof. vm_compute. auto. Qed.

Print Assumptions C30_record_target.
Print Assumptions C31_record_round_trip.
Print Assumptions C32_deserialize_touches_nothing.
Print Assumptions C32_load_reads_one_file.
Print Assumptions C32_reserialize_touches_nothing.
Print Assumptions C32_serialized_targets_proper.
Print Assumptions C33_move_copies.
Print Assumptions C34_write_failure_contained.
Print Assumptions C34_next_serialize_writes.
Print Assumptions C35_missing_file.
Print Assumptions C35_read_raises.
Print Assumptions C35_reported_and_retried.
Print Assumptions C36_preload_hides_missing_file.
