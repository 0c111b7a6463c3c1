(** Saving a model that was loaded and changed: C64. *)
From Coq Require Import List Ascii String Bool Arith ZArith Lia.
From Verif Require Import Base PosixModel FsModel PathModel SerialModel StoreModel StoreFrame StoreMount StoreSpec StoreLocal StorePlace
     StoreRecord StoreSave StoreExample SerialSpec SerialProof RoundSpec KeepSpec RoundProof ReplayProof KeepProof KeepSave PathSpec MountSpec DirSpec PosixProof FsProof DirProof TargetProof MountProof
     HistoryProof PathFacts PropsStore PropsRepo PropsRound.
Import ListNotations.

Local Arguments str_eq_dec : simpl never.
Local Arguments atom_eq_dec : simpl never.

(** ** C64 *)
(** A model whose records partly still wait in the files they were loaded from.  If accessing everything shows [t], and
    [save] returns and has left the files of the waiting records as they were, then loading the key in a later run
    shows [t]. *)
Theorem C64_saved_again : forall E E2 n m K M p k o w t wv o' j w' w2,
  absolute (s_cwd E) -> absolute (o_base p) -> same_code E E2 -> registered_classes E -> ordinary_uuids E -> faithful_methods E ->
  reads_determined E -> plain_defaults E ->
  s_limit E2 = None -> s_retouch E = $"auto" \/ s_retouch E = $"quit" -> s_validate E = true ->
  plain k -> k <> $".gitignore" ->
  well_formed (w_fs w) -> holds E w (key_dir p k) [] o -> view E K M o w = (Ok t, wv) -> n + Nat.max K M < m ->
  save E n p k o w = (Ok (o', j), w') ->
  (forall l, happened w wv (EvRead l) -> file_at (w_fs w') l = file_at (w_fs w) l) ->
  (forall l, own_ignore E p k l -> ~ happened w w' (EvWrite l) /\ ~ happened w wv (EvRead l)) ->
  w_fs w2 = w_fs w' ->
  exists o2 w3 w4, load E2 m p k None None w2 = (Ok o2, w3) /\ view E2 m m o2 w3 = (Ok t, w4).
Proof.
  intros E E2 n m K M p k o w t wv o' j w' w2 Hc Hb Hsame Hreg Huid Hfai Hdet Hdef Hlim Hret Hval Hk Hgi Hw Hbu Hview Hnm H Hint Hcl Hw2.
  apply (saved_kept E E2 n m K M p k o w t wv o' j w' w2 (fun _ u => u = []) (fun ev => match ev with EvRemove _ _ => False | _ => True end) (fun _ _ _ => False)); trivial.
  - intros comps u n0 cx w0 r w1 -> _ _ Hr. cbn [rm_all mapM] in Hr. unfold ret in Hr. injection Hr as _ <-.
    split; [exists []; split; [reflexivity|constructor]|intros _ _ q []].
  - left. intros i q [].
Qed.

(** ** An example *)
(** [ex_model] is saved under "new" and loaded in a second run; all its records wait.  The program then changes the field
    "name": the number becomes 4 and a new blob is added.  Nothing was accessed. *)
Definition kp_loaded : res obj * world :=
  load rt_env 11 ex_opts ($"new") None None (mkWorld (w_fs (snd (save rt_env 10 ex_opts ($"new") ex_model ex_world))) [] [] 5 []).
Definition kp_world : world := snd kp_loaded.
Definition kp_waiting (ty path : string) : obj :=
  ORec (OUnloaded (Some ($ty)) (from_path ($path)) (join2 (key_dir ex_opts ($"new")) (join_sep [])) (mkCtx 0 [])) (from_path ($path)) false None None.
Definition kp_changed (x : obj) : obj :=
  OModel 1 [($"name", OSeq (mkSeq false [] false None) [OAtom (AInt 4); kp_waiting "_sto__blob" "uuid0.bin"; x] []);
            ($"data", kp_waiting "_sto__mlist" "data.json"); ($"tmp", OAtom (AInt 7))] [].
Definition kp_tree (n : Z) (a : string) (more : list tree) : tree :=
  TModel 1 [($"name", TList ([TAtom (AInt n); TLeaf 0 ($"raw")] ++ more));
            ($"data", TSeq (mkSeq true [] false None) [TLeaf 0 ($a); TLeaf 0 ($"two")])].
Example kp_loaded_model : fst kp_loaded =
  Ok (OModel 1 [($"name", OSeq (mkSeq false [] false None) [OAtom (AInt 3); kp_waiting "_sto__blob" "uuid0.bin"] []);
                ($"data", kp_waiting "_sto__mlist" "data.json"); ($"tmp", OAtom (AInt 7))] []).
Proof. vm_compute. reflexivity. Qed.
Lemma kp_holds x : holds rt_env kp_world (key_dir ex_opts ($"new")) [] x -> holds rt_env kp_world (key_dir ex_opts ($"new")) [] (kp_changed x).
Proof.
  intros Hx.
  assert (Hcx : context_at rt_env kp_world (mkCtx 0 []) (key_dir ex_opts ($"new")) []).
  { eexists. split; [vm_compute; reflexivity|]. split; [exists ex_fs, true, true, [], ex_fs; split; [constructor|reflexivity]|split; [reflexivity|constructor]]. }
  assert (Hwt : forall ty path, fspath (from_path ($path)) = Ok ($path) -> holds rt_env kp_world (key_dir ex_opts ($"new")) [] (kp_waiting ty path)).
  { intros ty path Hp. apply h_waiting; assumption. }
  unfold kp_changed. eapply h_model; [reflexivity| |reflexivity|].
  - cbn. repeat (apply NoDup_cons; [intros Hy; cbn in Hy; repeat destruct Hy as [Hy|Hy]; try discriminate; contradiction|]). apply NoDup_nil.
  - intros f v Hf Hno Ha. cbn in Hf. destruct Hf as [<-|[<-|[<-|[]]]]; [| |discriminate Hno].
    + assert (Hv : v = OSeq (mkSeq false [] false None) [OAtom (AInt 4); kp_waiting "_sto__blob" "uuid0.bin"; x] []) by (enough (Hx0 : Some v = Some (OSeq (mkSeq false [] false None) [OAtom (AInt 4); kp_waiting "_sto__blob" "uuid0.bin"; x] [])) by congruence; rewrite <- Ha; reflexivity).
      subst v. split; [|discriminate]. apply h_seq; [reflexivity|]. intros y [<-|[<-|[<-|[]]]]; [apply h_atom|apply Hwt; vm_compute; reflexivity|exact Hx].
    + assert (Hv : v = kp_waiting "_sto__mlist" "data.json") by (enough (Hx0 : Some v = Some (kp_waiting "_sto__mlist" "data.json")) by congruence; rewrite <- Ha; reflexivity). subst v. split; [|discriminate]. apply Hwt. vm_compute. reflexivity.
Qed.
Example kp_methods : reads_determined rt_env /\ plain_defaults rt_env.
Proof.
  split; [intros c k k' x; reflexivity|]. intros [|[|c]] fds f v Hk Hf Hv; cbn in Hk; try discriminate; injection Hk as <-.
  - cbn in Hf. destruct Hf as [<-|[<-|[<-|[]]]]; cbn in Hv; try discriminate. injection Hv as <-. constructor.
  - contradiction.
Qed.
Lemma happened_in w w' ev : happened w w' ev -> In ev (firstn (List.length (w_log w') - List.length (w_log w)) (w_log w')).
Proof.
  intros (evs & -> & H). rewrite app_length, Nat.add_sub, firstn_app, Nat.sub_diag, firstn_O, app_nil_r, firstn_all. assumption.
Qed.
Example C64_example :
  reads_determined rt_env /\ plain_defaults rt_env /\ well_formed (w_fs kp_world) /\
  holds rt_env kp_world (key_dir ex_opts ($"new")) [] (kp_changed (fresh_record (blob "new"))) /\
  exists wv o' j w', view rt_env 11 11 (kp_changed (fresh_record (blob "new"))) kp_world = (Ok (kp_tree 4 "one" [TLeaf 0 ($"new")]), wv) /\
    save rt_env 10 ex_opts ($"new") (kp_changed (fresh_record (blob "new"))) kp_world = (Ok (o', j), w') /\
    (forall l, happened kp_world wv (EvRead l) -> file_at (w_fs w') l = file_at (w_fs kp_world) l) /\
    exists l, happened kp_world wv (EvRead l).
Proof.
  destruct kp_methods as [H1 H2]. split; [assumption|]. split; [assumption|]. split; [vm_compute; repeat constructor; cbn; intuition discriminate|].
  split; [apply kp_holds; apply h_rec; [intros sd _; eapply h_leaf; reflexivity|apply auto_ordinary; apply rt_uuids]|].
  let v := eval vm_compute in (view rt_env 11 11 (kp_changed (fresh_record (blob "new"))) kp_world) in
  let x := eval vm_compute in (save rt_env 10 ex_opts ($"new") (kp_changed (fresh_record (blob "new"))) kp_world) in
  match v with (_, ?wv) => match x with (Ok (?o, ?j), ?w') => exists wv, o, j, w' end end.
  split; [vm_compute; reflexivity|]. split; [vm_compute; reflexivity|]. split.
  - intros l H. apply happened_in in H. vm_compute in H. repeat destruct H as [H|H]; try discriminate; try contradiction; injection H as <-; vm_compute; reflexivity.
  - match goal with |- exists l, happened _ ?w _ => let e := eval vm_compute in (firstn (List.length (w_log w) - List.length (w_log kp_world)) (w_log w)) in
      match e with context [EvRead ?l] => exists l; exists e end end. split; [vm_compute; reflexivity|]. cbn. tauto.
Qed.

(** The files of waiting records are not reserved when a model is saved: a new record with the target "x" takes the file
    x.bin, in which a record of the list "data" is waiting, without a warning or an error.  What the program saw before
    saving is not what a later run sees. *)
Theorem C64_waiting_overwritten_refuted : exists E n p k o w t wv o' j w' o2 w3 t2,
  absolute (s_cwd E) /\ absolute (o_base p) /\ registered_classes E /\ ordinary_uuids E /\ faithful_methods E /\
  reads_determined E /\ plain_defaults E /\ s_limit E = None /\ s_retouch E = $"auto" /\ s_validate E = true /\
  plain k /\ o_cluster p = true /\ well_formed (w_fs w) /\ holds E w (key_dir p k) [] o /\
  fst (view E n n o w) = Ok t /\ save E n p k o w = (Ok (o', j), w') /\
  load E n p k None None w' = (Ok o2, w3) /\ view E n n o2 w3 = (Ok t2, wv) /\ t2 <> t.
Proof.
  destruct kp_methods as [M1 M2]. destruct rt_registered as [R1 R2].
  let x := eval vm_compute in (save rt_env 11 ex_opts ($"new") (kp_changed (rec_of (blob "new") "x")) kp_world) in
  match x with (Ok (?o', ?j), ?w') =>
    let y := eval vm_compute in (load rt_env 11 ex_opts ($"new") None None w') in
    match y with (Ok ?o2, ?w3) =>
      let z := eval vm_compute in (view rt_env 11 11 o2 w3) in
      match z with (Ok ?t2, ?wv) =>
        exists rt_env, 11, ex_opts, ($"new"), (kp_changed (rec_of (blob "new") "x")), kp_world, (kp_tree 4 "one" [TLeaf 0 ($"new")]), wv, o', j, w', o2, w3, t2 end end end.
  split; [eexists; reflexivity|]. split; [eexists; reflexivity|]. split; [assumption|]. split; [apply rt_uuids|]. split; [assumption|].
  split; [assumption|]. split; [assumption|]. repeat (split; [reflexivity|]).
  split; [repeat split; try discriminate; cbn; intros Hx; repeat destruct Hx as [Hx|Hx]; try discriminate; contradiction|].
  split; [reflexivity|]. split; [vm_compute; repeat constructor; cbn; intuition discriminate|].
  split.
  { apply kp_holds. apply h_rec; [intros sd _; eapply h_leaf; reflexivity|].
    assert (Hb : built rt_env (rec_of (blob "new") "x")).
    { apply (stem_ordinary _ "x"); [| |eapply b_leaf; reflexivity];
        repeat split; try discriminate; cbn; intros Hx; repeat destruct Hx as [Hx|Hx]; try discriminate; contradiction. }
    inversion Hb; assumption. }
  split; [vm_compute; reflexivity|]. split; [vm_compute; reflexivity|]. split; [vm_compute; reflexivity|]. split; [vm_compute; reflexivity|].
  vm_compute. discriminate.
Qed.

Print Assumptions C64_saved_again.
Print Assumptions C64_waiting_overwritten_refuted.
