(** [store]: C84. *)
From Coq Require Import List Ascii String Bool Arith ZArith Lia.
From Verif Require Import Base PosixModel FsModel PathModel SerialModel StoreModel StoreFrame StoreMount StoreSpec StoreLocal StorePlace
     StoreRecord StoreExample PathSpec MountSpec DirSpec PosixProof FsProof DirProof TargetProof MountProof HistoryProof PathFacts PropsRecord
     RoundSpec RoundProof PropsRound.
Import ListNotations.

(** The .gitignore that lists the files of a key. *)
Definition ignore_file (E : senv) (p : opts) (k : str) : loc :=
  location (s_cwd E) (if o_cluster p then fst (path_split (key_dir p k)) else key_dir p k) ++ [$".gitignore"].

(** ** C84 *)
(** What is not storable is refused, with nothing touched. *)
Theorem C84_store_refuses : forall E n p k o w, is_storable E o = false -> store E n p k o w = (Exn ValueError, w).
Proof. intros E n p k o w H. unfold store. rewrite H. reflexivity. Qed.

(** A content class with its own write and read method.  A [store] that returns a form without failures has written
    what the class writes to the file named after the key, and touched no other file except the .gitignore; the
    form, deserialized in a later process in a context of this key, gives a record whose content, when accessed,
    is the one that was stored. *)
Theorem C84_store_writes_and_reads_back : forall E n p k c d sfx x w s ty w',
  absolute (s_cwd E) -> absolute (key_dir p k) -> well_formed (w_fs w) -> In (s_retouch E) unattended ->
  usual_suffix E (OLeaf c d) sfx -> plain (k ++ sfx) -> k ++ sfx <> $".gitignore" ->
  (forall i, s_write E c i d = (Some x, None)) ->
  store E n p k (OLeaf c d) w = (Ok (record_form s (Some ty)), w') ->
  let l := location (s_cwd E) (key_dir p k) ++ [k ++ sfx] in
  file_at (w_fs w') l = Some x /\
  (forall q, q <> l -> (o_gitignore p = true -> q <> ignore_file E p k) -> file_at (w_fs w') q = file_at (w_fs w) q) /\
  forall E2 m cx2 w2, absolute (s_cwd E2) -> s_limit E2 = None -> well_formed (w_fs w2) -> context_at E2 w2 cx2 (key_dir p k) [] ->
    file_at (w_fs w2) l = Some x -> sto_ty E2 ty = Some (STLeaf c) -> (forall i, s_read E2 c i x = Ok d) ->
    exists o2 o3 w3, deserialize E2 (S m) (Some cx2) (record_form s (Some ty)) w2 = (Ok o2, w2) /\
      content_of E2 m o2 w2 = (Ok (OLeaf c d, o3), w3) /\ (forall q, file_at (w_fs w3) q = file_at (w_fs w2) q).
Proof.
  intros E n p k c d sfx x w s ty w' Hc Hd Hw Hu Hsfx Hpl Hng Hx H. cbn zeta. unfold store in H. destruct (is_storable E (OLeaf c d)); [|discriminate].
  apply mbind_ok in H as (cx & w1 & H1 & H). unfold open_context in H1. injection H1 as <- <-. fold (opened p k w) in H.
  set (i := List.length (w_mounts w)) in *. set (cx := mkCtx i []) in *. set (D0 := key_dir p k) in *.
  apply mbind_ok in H as (t & w1 & H1 & H).
  assert (Ht : t = mkTarget (Some []) (Some k) (Some sfx)).
  { unfold rec_target in H1. cbn [is_complete t_subdir t_stem t_suffix andb] in H1. unfold mbind, m_uuid, ret in H1. injection H1 as H1 _. rewrite <- H1.
    inversion Hsfx as [c0 d0 j0 x0 Hk|c0 d0 Hk|c0 d0 Hk| | |]; subst; unfold ext_of, json_like; rewrite Hk; reflexivity. }
  pose proof (rec_target_still _ _ _ _ _ _ H1) as (ku & Hw1 & _).
  apply mbind_ok in H as ([o' q0] & w2 & H2 & H). apply mbind_ok in H as (u & w3 & H3 & H). cbn [snd] in H. unfold ret in H. injection H as -> <-.
  assert (Hok : mnt_ok i D0 w1) by (rewrite Hw1; exact (opened_ok p k w Hw)).
  assert (Hs : sctx i [] cx) by (apply sctx_top).
  assert (Hp : places t [k ++ sfx]).
  { subst t. exists [], (k ++ sfx). split; [reflexivity|]. split; [reflexivity|]. split; [exact Hpl|]. split; [intros [r Hr]; discriminate|]. split; [intros [Hq|[]]; discriminate|reflexivity]. }
  assert (Ht1 : rec_target E (OLeaf c d) t w1 = (Ok t, w1)) by (subst t; reflexivity).
  destruct (leaf_written E n cx D0 [] c d t t [k ++ sfx] None None w1 w1 o' s ty w2 x Hc Hd Hok Hs Hu Ht1 Hp Hx H2) as (l & L1 & L2 & L3 & L4 & L5 & L6).
  assert (Hl : l = location (s_cwd E) D0 ++ [k ++ sfx]).
  { apply L2. right. intros m v r Hm Hv. rewrite Hw1 in Hm. unfold opened in Hm. cbn [w_mounts c_mnt cx] in Hm.
    unfold i in Hm. rewrite nth_error_app2, Nat.sub_diag in Hm by lia. injection Hm as <-. destruct Hv. }
  subst l. set (l := location (s_cwd E) D0 ++ [k ++ sfx]) in *.
  assert (Hst : statics w2 = statics w1).
  { pose proof (on_ser E i D0 Hc Hd Hu (fun _ => True) (fun _ _ => I) n cx [] (ORec (OLeaf c d) t false None None) Hs w1 Hok) as Hons.
    rewrite H2 in Hons. destruct Hons as (_ & Hons & _). exact Hons. }
  pose proof L5 as [(mt & Hmt & Hmd & _) Hwf2]. change (c_mnt cx) with i in Hmt.
  assert (Hsm : m_gitignore mt = o_gitignore p /\ m_cluster mt = o_cluster p).
  { pose proof (statics_nth _ _ _ Hmt) as Hn. rewrite Hst, Hw1 in Hn. unfold statics, opened in Hn. cbn [w_mounts] in Hn.
    rewrite nth_error_map, nth_error_app2, Nat.sub_diag in Hn by (unfold i; lia). cbn in Hn. injection Hn as _ Hn1 Hn2. auto. }
  destruct Hsm as [Hsm1 Hsm2].
  assert (Haway : forall q, (o_gitignore p = true -> q <> ignore_file E p k) -> file_at (w_fs w3) q = file_at (w_fs w2) q).
  { intros q Hq. unfold close_context in H3. apply op_cases in H3 as [(H3 & _)|H3]; [discriminate|]. cbn [logged w_mounts w_fs] in H3.
    change (c_mnt cx) with i in H3. rewrite Hmt in H3. destruct (mount_close (s_cwd E) (w_fs w2) mt) as [fs3|] eqn:Hcl; [|discriminate]. injection H3 as _ <-. cbn [set_fs w_fs].
    apply (close_away _ _ _ _ Hc Hwf2 Hcl). rewrite Hsm1, Hsm2, Hmd. exact Hq. }
  split; [|split].
  - rewrite Haway; [exact L3|]. intros _ Hx2. apply app_inj_tail in Hx2 as [_ Hx2]. contradiction.
  - intros q Hq Hgi. rewrite Haway by exact Hgi. rewrite L4 by exact Hq. rewrite Hw1. reflexivity.
  - intros E2 m cx2 w4 Hc2 Hl2 Hw4 Hcx2 Hf Hty Hr.
    destruct (context_at_ok E2 w4 cx2 D0 [] Hc2 Hd Hw4 Hcx2) as [Hok4 Hs4].
    destruct (L6 E2 m cx2 w4 x d Hc2 Hl2 Hok4 Hs4 Hf Hty Hr) as (o2 & o3 & w5 & R1 & R2 & R3 & _). eauto 10.
Qed.

(** A list of storables written by [store] lies in the file that [load] looks into, but as content without its type: what
    [load] returns is a dict.  What is stored under another suffix is not found by [load] at all. *)
Definition sk_list : obj := OSeq (mkSeq true [] false None) [rec_of (blob "one") "x"] [].
Theorem C84_stored_then_loaded_refuted :
  (exists r w' d w2, store rt_env 10 ex_opts ($"new") sk_list ex_world = (Ok r, w') /\
     load rt_env 10 ex_opts ($"new") None None (mkWorld (w_fs w') [] [] 0 []) = (Ok (ODict d), w2)) /\
  (exists r w' w2, store rt_env 10 ex_opts ($"new") (blob "one") ex_world = (Ok r, w') /\
     load rt_env 10 ex_opts ($"new") None None (mkWorld (w_fs w') [] [] 0 []) = (Exn FileNotFoundError, w2)).
Proof.
  split.
  - let v := eval vm_compute in (store rt_env 10 ex_opts ($"new") sk_list ex_world) in
    match v with (Ok ?r, ?w') =>
      let u := eval vm_compute in (load rt_env 10 ex_opts ($"new") None None (mkWorld (w_fs w') [] [] 0 [])) in
      match u with (Ok (ODict ?d), ?w2) => exists r, w', d, w2 end end.
    split; vm_compute; reflexivity.
  - let v := eval vm_compute in (store rt_env 10 ex_opts ($"new") (blob "one") ex_world) in
    match v with (Ok ?r, ?w') =>
      let u := eval vm_compute in (load rt_env 10 ex_opts ($"new") None None (mkWorld (w_fs w') [] [] 0 [])) in
      match u with (_, ?w2) => exists r, w', w2 end end.
    split; vm_compute; reflexivity.
Qed.

Example C84_example :
  is_storable rt_env (OAtom (AInt 3)) = false /\ usual_suffix rt_env (blob "one") ($".bin") /\ plain ($"new" ++ $".bin") /\
  absolute (key_dir ex_opts ($"new")) /\ sto_ty rt_env ($"_sto__blob") = Some (STLeaf 0) /\
  (forall i, s_write rt_env 0 i ($"one") = (Some (Text ($"one")), None)) /\ (forall i, s_read rt_env 0 i (Text ($"one")) = Ok ($"one")) /\
  exists s w', store rt_env 10 ex_opts ($"new") (blob "one") ex_world = (Ok (record_form s (Some ($"_sto__blob"))), w') /\
    file_at (w_fs w') (location (s_cwd rt_env) (key_dir ex_opts ($"new")) ++ [$"new.bin"]) = Some (Text ($"one")).
Proof.
  split; [reflexivity|]. split; [eapply us_ext; reflexivity|].
  split; [split; [discriminate|split; [discriminate|split; [discriminate|]]]; cbn; intros Hx; repeat destruct Hx as [Hx|Hx]; try discriminate; contradiction|].
  split; [eexists; vm_compute; reflexivity|]. repeat (split; [reflexivity|]).
  exists ($"new.bin"). let v := eval vm_compute in (store rt_env 10 ex_opts ($"new") (blob "one") ex_world) in
    match v with (_, ?w') => exists w' end.
  split; vm_compute; reflexivity.
Qed.

Print Assumptions C84_store_refuses.
Print Assumptions C84_store_writes_and_reads_back.
Print Assumptions C84_stored_then_loaded_refuted.
