(** Track blocks: C52, C65. *)
From Coq Require Import List Ascii String Bool Arith ZArith Lia.
From Verif Require Import Base PosixModel FsModel PathModel SerialModel StoreModel TrackModel StoreMount StoreLocal StoreEvents StoreSave StoreSpec StoreExample SerialSpec RoundSpec KeepSpec
     PathSpec MountSpec DirSpec RoundProof PropsRepo PropsRound PropsKeep.
Import ListNotations.

Local Arguments str_eq_dec : simpl never.

(** ** C52 *)
(** A block that was entered: the object as the block left it (in memory, or still waiting in files) is saved, whether
    the block ended normally or by an exception; the statement ends exactly as the block did; a later run that loads
    the key sees the object as the block left it. *)
Theorem C52_leaving_saves : forall E E2 n m K M k p d df body w o w1 o1 out w2 t wv o' j w' w3,
  load E n p k d df w = (Ok o, w1) -> body o w1 = ((o1, out), w2) ->
  absolute (s_cwd E) -> absolute (o_base p) -> same_code E E2 -> registered_classes E -> ordinary_uuids E -> faithful_methods E ->
  reads_determined E -> plain_defaults E ->
  s_limit E2 = None -> s_retouch E = $"auto" \/ s_retouch E = $"quit" -> s_validate E = true ->
  plain k -> k <> $".gitignore" ->
  well_formed (w_fs w2) -> holds E w2 (key_dir p k) [] o1 -> view E K M o1 w2 = (Ok t, wv) -> n + Nat.max K M < m ->
  save E n p k o1 w2 = (Ok (o', j), w') ->
  (forall l, happened w2 wv (EvRead l) -> file_at (w_fs w') l = file_at (w_fs w2) l) ->
  (forall l, own_ignore E p k l -> ~ happened w2 w' (EvWrite l) /\ ~ happened w2 wv (EvRead l)) ->
  w_fs w3 = w_fs w' ->
  exists t' o2 w4 w5, with_track E n (new_track k p d df) body w = ((out, t'), w') /\
    load E2 m p k None None w3 = (Ok o2, w4) /\ view E2 m m o2 w4 = (Ok t, w5).
Proof.
  intros E E2 n m K M k p d df body w o w1 o1 out w2 t wv o' j w' w3 Hload Hbody Hc Hb Hsame Hreg Huid Hfai Hdet Hdef Hlim Hret Hval Hk Hgi Hw Hho Hview Hnm Hsave Hint Hcl Hw3.
  destruct (C64_saved_again E E2 n m K M p k o1 w2 t wv o' j w' w3) as (o2 & w4 & w5 & L1 & L2); try assumption.
  assert (Hx : exists t', with_track E n (new_track k p d df) body w = ((out, t'), w')).
  { unfold with_track, tk_enter, tk_exit, tk_load, tk_save, new_track. cbn [tk_opts tk_key tk_default tk_factory]. rewrite Hload, Hbody.
    cbn [holding tk_opts tk_key tk_default tk_factory tk_content]. rewrite Hsave. destruct out; eexists; reflexivity. }
  destruct Hx as [t' Hx]. exists t', o2, w4, w5. auto.
Qed.
(** When saving fails, its exception is what is seen; when loading fails, the block is not run and nothing is saved. *)
Theorem C52_failures : forall E n k p d df body w,
  (forall e w', load E n p k d df w = (Exn e, w') -> with_track E n (new_track k p d df) body w = ((Some e, new_track k p d df), w')) /\
  (forall o w1 o1 out w2 e w', load E n p k d df w = (Ok o, w1) -> body o w1 = ((o1, out), w2) -> save E n p k o1 w2 = (Exn e, w') ->
     exists t', with_track E n (new_track k p d df) body w = ((Some e, t'), w')).
Proof.
  intros E n k p d df body w. unfold with_track, tk_enter, tk_exit, tk_load, tk_save, new_track. cbn [tk_opts tk_key tk_default tk_factory]. split.
  - intros e w' ->. reflexivity.
  - intros o w1 o1 out w2 e w' -> ->. cbn [holding tk_opts tk_key tk_default tk_factory tk_content]. intros ->. eexists. reflexivity.
Qed.
(** The world of the example of C64: the block changes the field "name" and raises ValueError. *)
(** [save(unload=True)] on something built in memory: the track object then holds, and returns, what was read back from
    the files, with the contents that were saved.  Saving needs less depth ([n]) than is allowed ([m]). *)
Theorem C52_save_and_read_back : forall E n m t w o' j w1,
  absolute (s_cwd E) -> absolute (o_base (tk_opts t)) -> registered_classes E -> ordinary_uuids E -> faithful_methods E ->
  s_limit E = None -> s_retouch E = $"auto" \/ s_retouch E = $"quit" -> s_validate E = true ->
  plain (tk_key t) -> tk_key t <> $".gitignore" -> well_formed (w_fs w) -> built E (tk_content t) -> n < m ->
  save E n (tk_opts t) (tk_key t) (tk_content t) w = (Ok (o', j), w1) ->
  save E m (tk_opts t) (tk_key t) (tk_content t) w = (Ok (o', j), w1) ->
  (forall l, own_ignore E (tk_opts t) (tk_key t) l -> ~ happened w w1 (EvWrite l)) ->
  exists tr o2 w2 w3, tk_save E m true t w = ((Ok o2, mkTrk (tk_key t) (tk_opts t) (tk_default t) (tk_factory t) o2), w2) /\
    load E m (tk_opts t) (tk_key t) None None w1 = (Ok o2, w2) /\
    (forall w0, view E m m (tk_content t) w0 = (Ok tr, w0)) /\ view E m m o2 w2 = (Ok tr, w3).
Proof.
  intros E n m [k p d df o] w o' j w1. cbn [tk_key tk_opts tk_default tk_factory tk_content].
  intros Hc Hb Hreg Huid Hfai Hlim Hret Hval Hk Hgi Hw Hbu Hnm Hs Hs2 Hcl.
  assert (Hw1 : well_formed (w_fs w1)).
  { pose proof (save_traced E Hc n p k o w Hw) as (new & _ & _ & Hx & _). rewrite Hs in Hx. apply Hx. exact Hw. }
  destruct (C45_round_trip E E n m p k o w o' j w1 w1) as (tr & o2 & w2 & w3 & V & L1 & L2); try assumption; [repeat split|reflexivity|].
  exists tr, o2, w2, w3. split; [|auto]. unfold tk_save, tk_load. cbn [tk_key tk_opts tk_default tk_factory tk_content]. rewrite Hs2.
  cbn [tk_key tk_opts tk_default tk_factory tk_content holding].
  assert (Hl : load E m p k d df w1 = (Ok o2, w2)).
  { destruct (exists_at (w_fs w1) (json_at E p k)) eqn:Ex.
    - rewrite (C48_existing_file_wins E m p k d df None None w1 Hc Ex). exact L1.
    - destruct (C48_default_iff_no_file E m p k None None w1 Hc Hlim Hw1 Ex) as (wz & Hz & _). rewrite L1 in Hz. discriminate. }
  rewrite Hl. reflexivity.
Qed.
(** Whatever is held: when saving or reading back fails, that failure is raised. *)
Theorem C52_unload_failures : forall E n t w,
  (forall e w1, save E n (tk_opts t) (tk_key t) (tk_content t) w = (Exn e, w1) -> forall u, tk_save E n u t w = ((Exn e, t), w1)) /\
  (forall o' j w1 e w2, save E n (tk_opts t) (tk_key t) (tk_content t) w = (Ok (o', j), w1) ->
     load E n (tk_opts t) (tk_key t) (tk_default t) (tk_factory t) w1 = (Exn e, w2) -> fst (fst (tk_save E n true t w)) = Exn e).
Proof.
  intros E n t w. split.
  - intros e w1 H u. unfold tk_save. rewrite H. reflexivity.
  - intros o' j w1 e w2 H1 H2. unfold tk_save. rewrite H1. unfold tk_load, holding. cbn [tk_key tk_opts tk_default tk_factory]. rewrite H2. reflexivity.
Qed.

Definition tr_world : world := mkWorld (w_fs (snd (save rt_env 10 ex_opts ($"new") ex_model ex_world))) [] [] 5 [].
Definition tr_body : block := fun _ w => ((kp_changed (fresh_record (blob "new")), Some ValueError), w).
Example C52_example :
  exists o w1 t wv w', load rt_env 11 ex_opts ($"new") None None tr_world = (Ok o, w1) /\
    tr_body o w1 = ((kp_changed (fresh_record (blob "new")), Some ValueError), kp_world) /\
    holds rt_env kp_world (key_dir ex_opts ($"new")) [] (kp_changed (fresh_record (blob "new"))) /\
    view rt_env 11 11 (kp_changed (fresh_record (blob "new"))) kp_world = (Ok t, wv) /\
    (forall l, happened kp_world wv (EvRead l) -> file_at (w_fs w') l = file_at (w_fs kp_world) l) /\
    exists t', with_track rt_env 11 (new_track ($"new") ex_opts None None) tr_body tr_world = ((Some ValueError, t'), w') /\
      fst (view rt_env 11 11 (tk_content t') w') = Ok t.
Proof.
  destruct C64_example as (_ & _ & _ & Hh & _).
  let a := eval vm_compute in (load rt_env 11 ex_opts ($"new") None None tr_world) in
  let v := eval vm_compute in (view rt_env 11 11 (kp_changed (fresh_record (blob "new"))) kp_world) in
  let x := eval vm_compute in (with_track rt_env 11 (new_track ($"new") ex_opts None None) tr_body tr_world) in
  match a with (Ok ?o, ?w1) => match v with (Ok ?t, ?wv) => match x with (_, ?w') => exists o, w1, t, wv, w' end end end.
  split; [vm_compute; reflexivity|]. split; [vm_compute; reflexivity|]. split; [exact Hh|]. split; [vm_compute; reflexivity|]. split.
  - intros l H. apply happened_in in H. vm_compute in H. repeat destruct H as [H|H]; try discriminate; try contradiction; injection H as <-; vm_compute; reflexivity.
  - let x := eval vm_compute in (with_track rt_env 11 (new_track ($"new") ex_opts None None) tr_body tr_world) in
    match x with ((_, ?t'), _) => exists t' end. split; vm_compute; reflexivity.
Qed.

Example C52_read_back_example : let t := mkTrk ($"new") ex_opts None None ex_model in
  built rt_env (tk_content t) /\ (exists o' j w1, save rt_env 10 ex_opts ($"new") ex_model ex_world = (Ok (o', j), w1) /\
    save rt_env 11 ex_opts ($"new") ex_model ex_world = (Ok (o', j), w1) /\
    (forall l, own_ignore rt_env ex_opts ($"new") l -> ~ happened ex_world w1 (EvWrite l))) /\
  exists o2 t' w2, tk_save rt_env 11 true t ex_world = ((Ok o2, t'), w2) /\ o2 <> ex_model.
Proof.
  split; [exact rt_built|]. split.
  - let v := eval vm_compute in (save rt_env 10 ex_opts ($"new") ex_model ex_world) in match v with (Ok (?o, ?j), ?w') => exists o, j, w' end.
    split; [vm_compute; reflexivity|]. split; [vm_compute; reflexivity|].
    intros l (_ & H1 & _) _. vm_compute in H1. discriminate H1.
  - let v := eval vm_compute in (tk_save rt_env 11 true (mkTrk ($"new") ex_opts None None ex_model) ex_world) in match v with ((Ok ?o, ?t), ?w') => exists o, t, w' end.
    split; [vm_compute; reflexivity|]. discriminate.
Qed.

(** ** C65 *)
(** A track object that was neither entered nor loaded holds None, and [save] writes that over what the key held: a later
    run sees None, whatever default it asks for. *)
Theorem C65_saved_before_loading : forall E E2 n m k p d df w r t' w' w2 d2 df2,
  absolute (s_cwd E) -> absolute (o_base p) -> same_code E E2 -> registered_classes E -> ordinary_uuids E -> faithful_methods E ->
  s_limit E2 = None -> s_retouch E = $"auto" \/ s_retouch E = $"quit" -> s_validate E = true ->
  plain k -> k <> $".gitignore" -> well_formed (w_fs w) -> n < m ->
  tk_save E n false (new_track k p d df) w = ((Ok r, t'), w') -> w_fs w2 = w_fs w' -> well_formed (w_fs w2) ->
  exists o2 w3 w4, load E2 m p k d2 df2 w2 = (Ok o2, w3) /\ view E2 m m o2 w3 = (Ok (TAtom ANone), w4).
Proof.
  intros E E2 n m k p d df w r t' w' w2 d2 df2 Hc Hb Hsame Hreg Huid Hfai Hlim Hret Hval Hk Hgi Hw Hnm H Hw2 Hwf2.
  unfold tk_save, new_track in H. cbn [tk_opts tk_key tk_content] in H.
  destruct (save E n p k (OAtom ANone) w) as [[[o' j]|e] wx] eqn:Es; [|discriminate]. injection H as _ _ <-.
  destruct (C45_round_trip E E2 n m p k (OAtom ANone) w o' j wx w2) as (t & o2 & w3 & w4 & V & L1 & L2); try assumption; [constructor| |].
  { (* only the key's json file is written *)
    intros l (_ & _ & ->) (ev & Hev & Hin).
    assert (Hun : In (s_retouch E) unattended) by (destruct Hret as [-> | ->]; [left|right; left]; reflexivity).
    pose proof (save_inv_log E Hc Hun p k Hb n (OAtom ANone) w o' j wx [k]) as HS. cbn zeta in HS. cbn [removelast last app] in HS.
    destruct HS as (o1 & q & u & wa & wb & fs1 & fs2 & mt & Ho1 & Hg & Hoka & Hser & _ & _ & _ & _ & _ & _ & _ & Hlog);
      [discriminate|constructor; [assumption|constructor]|reflexivity|assumption|assumption|].
    assert (Hwb : wb = wa).
    { destruct Ho1 as [[-> _]|(_ & Hx & _)]; [|discriminate Hx]. unfold serialize in Hser. destruct n as [|n]; [discriminate|]. cbn in Hser. unfold ret in Hser. congruence. }
    destruct Hg as (mm & touched & fs' & _ & _ & _ & _ & _ & -> & _). subst wb. cbn [w_log opened] in Hlog. rewrite Hlog in Hev.
    match type of Hev with ?a :: ?b :: ?c :: ?e :: _ = _ => change ([a; b; c; e] ++ w_log w = ev ++ w_log w) in Hev end.
    apply app_inv_tail in Hev. subst ev. cbn [In] in Hin. repeat destruct Hin as [Hin|Hin]; try discriminate; try contradiction; injection Hin as Hin;
      apply app_inv_head in Hin; injection Hin as Hin; exact (json_not_ignore k Hin). }
  assert (t = TAtom ANone).
  { specialize (V w). destruct m as [|m]; [lia|]. cbn [view content_of] in V. rewrite mbind_run in V. unfold ret at 1 in V. cbn [fst] in V. unfold ret in V. congruence. }
  subst t. exists o2, w3, w4. split; [|assumption].
  assert (Hc2 : absolute (s_cwd E2)) by (destruct Hsame as (_ & _ & _ & _ & ->); exact Hc).
  destruct (exists_at (w_fs w2) (json_at E2 p k)) eqn:Ex.
  - rewrite (C48_existing_file_wins E2 m p k d2 df2 None None w2 Hc2 Ex). exact L1.
  - destruct (C48_default_iff_no_file E2 m p k None None w2 Hc2 Hlim Hwf2 Ex) as (wz & Hz & _). rewrite L1 in Hz. discriminate.
Qed.
(** In the world of the example the key holds a model. *)
Example C65_example : exists o w1 r t' w', load rt_env 11 ex_opts ($"new") None None tr_world = (Ok o, w1) /\ o <> OAtom ANone /\
  tk_save rt_env 10 false (new_track ($"new") ex_opts None None) tr_world = ((Ok r, t'), w') /\ well_formed (w_fs tr_world).
Proof.
  let a := eval vm_compute in (load rt_env 11 ex_opts ($"new") None None tr_world) in
  let x := eval vm_compute in (tk_save rt_env 10 false (new_track ($"new") ex_opts None None) tr_world) in
  match a with (Ok ?o, ?w1) => match x with ((Ok ?r, ?t'), ?w') => exists o, w1, r, t', w' end end.
  split; [vm_compute; reflexivity|]. split; [discriminate|]. split; [vm_compute; reflexivity|]. vm_compute. repeat constructor; cbn; intuition discriminate.
Qed.

Print Assumptions C52_leaving_saves.
Print Assumptions C52_failures.
Print Assumptions C52_save_and_read_back.
Print Assumptions C52_unload_failures.
Print Assumptions C65_saved_before_loading.
