(** The model of an earlier save after an interrupted one: C50. *)
From Coq Require Import List Ascii String Bool Arith ZArith Lia.
From Verif Require Import Base PosixModel FsModel PathModel SerialModel StoreModel StoreFrame StoreMount StoreSpec StoreLocal StorePlace
     StoreRecord StoreSave StoreEvents StoreExample SerialSpec SerialProof RoundSpec KeepSpec RoundProof ReplayProof KeepProof PathSpec MountSpec DirSpec PosixProof FsProof
     DirProof TargetProof MountProof HistoryProof PathFacts PropsStore PropsRepo PropsRound KeepSave PropsKeep.
Import ListNotations.

Local Arguments str_eq_dec : simpl never.
Local Arguments atom_eq_dec : simpl never.

(** A save that came neither to removing files nor to closing its mount left all files intact that it did not write. *)
Lemma interrupted_intact E n p k o w r w' l : absolute (s_cwd E) -> well_formed (w_fs w) -> save E n p k o w = (r, w') ->
  (forall i, ~ happened w w' (EvClose i)) -> (forall i q, ~ happened w w' (EvRemove i q)) -> ~ happened w w' (EvWrite l) ->
  file_at (w_fs w') l = file_at (w_fs w) l.
Proof.
  intros Hc Hw H H1 H2 H3. destruct (C50_untouched_files_intact E n p k o w r w' Hc Hw H) as (evs & Hl & Hs).
  apply Hs. intros Hh. destruct Hh as [l Hi|i q d Hi _|i d Hi _|i d Hi _]; [apply H3|apply (H2 i q)|apply (H1 i)|apply (H1 i)]; exists evs; auto.
Qed.
Lemma save_wf E n p k o w r w' : absolute (s_cwd E) -> well_formed (w_fs w) -> save E n p k o w = (r, w') -> well_formed (w_fs w').
Proof. intros Hc Hw H. pose proof (save_traced E Hc n p k o w Hw) as (new & _ & _ & Hx & _). rewrite H in Hx. apply Hx. exact Hw. Qed.
Lemma own_ignore_is E p k : plain k ->
  ignore_loc (s_cwd E) (o_cluster p) (key_dir p k) =
  (let dir := location (s_cwd E) (key_dir p k) in if o_cluster p then removelast dir else dir) ++ [$".gitignore"].
Proof.
  intros Hk. unfold ignore_loc. cbn zeta. destruct (o_cluster p) eqn:Ec; [|reflexivity]. rewrite (key_parent E p k Hk Ec), removelast_last. reflexivity.
Qed.

(** A model was saved under a key.  A later run saves something (under any key) and is interrupted before it closed its mount,
    whatever the interruption; up to then it removed no file and wrote none that the first save had written, nor the
    .gitignore around the key.  Then the next run that loads the key sees the model of the first save. *)
Theorem C50_previous_model_loads : forall E E1 E2 n n1 m p k o w o' j w' p1 k1 o1 w1 r w1' w2,
  absolute (s_cwd E) -> absolute (o_base p) -> same_code E E2 -> s_cwd E1 = s_cwd E ->
  registered_classes E -> ordinary_uuids E -> faithful_methods E ->
  s_limit E2 = None -> s_retouch E = $"auto" \/ s_retouch E = $"quit" -> s_validate E = true ->
  plain k -> k <> $".gitignore" ->
  well_formed (w_fs w) -> built E o -> n < m ->
  save E n p k o w = (Ok (o', j), w') -> (forall l, own_ignore E p k l -> ~ happened w w' (EvWrite l)) ->
  w_fs w1 = w_fs w' -> save E1 n1 p1 k1 o1 w1 = (r, w1') ->
  (forall i, ~ happened w1 w1' (EvClose i)) -> (forall i q, ~ happened w1 w1' (EvRemove i q)) ->
  (forall l, happened w w' (EvWrite l) -> ~ happened w1 w1' (EvWrite l)) ->
  (let dir := location (s_cwd E) (key_dir p k) in
   ~ happened w1 w1' (EvWrite ((if o_cluster p then removelast dir else dir) ++ [$".gitignore"]))) ->
  w_fs w2 = w_fs w1' ->
  exists t o2 w3 w4, (forall w0, view E m m o w0 = (Ok t, w0)) /\
    load E2 m p k None None w2 = (Ok o2, w3) /\ view E2 m m o2 w3 = (Ok t, w4).
Proof.
  intros E E1 E2 n n1 m p k o w o' j w' p1 k1 o1 w1 r w1' w2 Hc Hb Hsame Hcwd Hreg Huid Hfai Hlim Hret Hval Hk Hgi Hw Hbu Hnm H Hcl Hw1 H1 Hnc Hnr Hnw Hng Hw2.
  assert (Hc1 : absolute (s_cwd E1)) by (rewrite Hcwd; assumption).
  assert (Hwf1 : well_formed (w_fs w1)) by (rewrite Hw1; eapply save_wf; [| |exact H]; assumption).
  apply (files_round_trip E E2 n m p k o w o' j w' w2); trivial.
  - rewrite Hw2. eapply save_wf; [| |exact H1]; assumption.
  - intros l Hl. rewrite Hw2, <- Hw1. eapply interrupted_intact; try eassumption. auto.
  - intros _. cbn zeta. rewrite own_ignore_is by assumption. rewrite Hw2, <- Hw1. eapply interrupted_intact; eassumption.
Qed.
(** The same when the first save was that of a model that had been loaded and changed; of the files its records wait in, too,
    none is written. *)
Theorem C50_previous_loaded_model_loads : forall E E1 E2 n n1 m K M p k o w t wv o' j w' p1 k1 o1 w1 r w1' w2,
  absolute (s_cwd E) -> absolute (o_base p) -> same_code E E2 -> s_cwd E1 = s_cwd E ->
  registered_classes E -> ordinary_uuids E -> faithful_methods E -> reads_determined E -> plain_defaults E ->
  s_limit E2 = None -> s_retouch E = $"auto" \/ s_retouch E = $"quit" -> s_validate E = true ->
  plain k -> k <> $".gitignore" ->
  well_formed (w_fs w) -> holds E w (key_dir p k) [] o -> view E K M o w = (Ok t, wv) -> n + Nat.max K M < m ->
  save E n p k o w = (Ok (o', j), w') ->
  (forall l, happened w wv (EvRead l) -> file_at (w_fs w') l = file_at (w_fs w) l) ->
  (forall l, own_ignore E p k l -> ~ happened w w' (EvWrite l) /\ ~ happened w wv (EvRead l)) ->
  w_fs w1 = w_fs w' -> save E1 n1 p1 k1 o1 w1 = (r, w1') ->
  (forall i, ~ happened w1 w1' (EvClose i)) -> (forall i q, ~ happened w1 w1' (EvRemove i q)) ->
  (forall l, happened w w' (EvWrite l) \/ happened w wv (EvRead l) -> ~ happened w1 w1' (EvWrite l)) ->
  (let dir := location (s_cwd E) (key_dir p k) in
   ~ happened w1 w1' (EvWrite ((if o_cluster p then removelast dir else dir) ++ [$".gitignore"]))) ->
  w_fs w2 = w_fs w1' ->
  exists o2 w3 w4, load E2 m p k None None w2 = (Ok o2, w3) /\ view E2 m m o2 w3 = (Ok t, w4).
Proof.
  intros E E1 E2 n n1 m K M p k o w t wv o' j w' p1 k1 o1 w1 r w1' w2 Hc Hb Hsame Hcwd Hreg Huid Hfai Hdet Hdef Hlim Hret Hval Hk Hgi Hw Hbu Hview Hnm H Hint Hcl Hw1 H1 Hnc Hnr Hnw Hng Hw2.
  assert (Hc1 : absolute (s_cwd E1)) by (rewrite Hcwd; assumption).
  assert (Hwf1 : well_formed (w_fs w1)) by (rewrite Hw1; eapply save_wf; [| |exact H]; assumption).
  apply (files_kept E E2 n m K M p k o w t wv o' j w' w2 (fun _ u => u = []) (fun ev => match ev with EvRemove _ _ => False | _ => True end) (fun _ _ _ => False)); trivial.
  - intros comps u n0 cx w0 r0 w0' -> _ _ Hr. cbn [rm_all mapM] in Hr. unfold ret in Hr. injection Hr as _ <-.
    split; [exists []; split; [reflexivity|constructor]|intros _ _ q []].
  - left. intros i q [].
  - rewrite Hw2. eapply save_wf; [| |exact H1]; assumption.
  - intros l _ Hl. rewrite Hw2, <- Hw1. eapply interrupted_intact; try eassumption. auto.
  - intros _. cbn zeta. rewrite own_ignore_is by assumption. intros s Hs. exists s. rewrite <- Hs, Hw2, <- Hw1. eapply interrupted_intact; eassumption.
Qed.

(** [ex_model] is saved under "new"; the save of a list of new records under the same key is interrupted after the first
    record file was written. *)
Definition cr_list : obj := OSeq (mkSeq false [] false None) [rec_of (blob "fresh") "y"; rec_of (blob "later") "z"] [].
Definition cr_saved : world := snd (save rt_env 10 ex_opts ($"new") ex_model ex_world).
Definition cr_start : world := mkWorld (w_fs cr_saved) [] [] 0 [].
Definition cr_env : senv := ex_env "auto" true (Some 5).
Definition cr_end : world := snd (save cr_env 10 ex_opts ($"new") cr_list cr_start).
Definition cr_fresh (ev : event) : bool :=
  match ev with EvWrite l => match l with [_; _; _; _; n] => if str_eq_dec n ($"y.bin") then true else if str_eq_dec n ($"z.bin") then true else false | _ => false end | _ => true end.
Lemma cr_events :
  forallb (fun ev => match ev with EvClose _ | EvRemove _ _ => false | _ => true end) (w_log cr_end) = true /\
  forallb cr_fresh (w_log cr_end) = true /\
  forallb (fun ev => match ev with EvWrite _ => negb (cr_fresh ev) | _ => true end) (w_log cr_saved) = true.
Proof. repeat split; vm_compute; reflexivity. Qed.
Example C50_previous_example :
  s_cwd cr_env = s_cwd rt_env /\ fst (save cr_env 10 ex_opts ($"new") cr_list cr_start) = Exn Crash /\
  (forall i, ~ happened cr_start cr_end (EvClose i)) /\ (forall i q, ~ happened cr_start cr_end (EvRemove i q)) /\
  (forall l, happened ex_world cr_saved (EvWrite l) -> ~ happened cr_start cr_end (EvWrite l)) /\
  (let dir := location (s_cwd rt_env) (key_dir ex_opts ($"new")) in
   ~ happened cr_start cr_end (EvWrite ((if o_cluster ex_opts then removelast dir else dir) ++ [$".gitignore"]))) /\
  happened cr_start cr_end (EvWrite [$"proj"; $".dman"; $"gen"; $"new"; $"y.bin"]) /\
  exists o2 w3 w4, load rt_later 11 ex_opts ($"new") None None cr_end = (Ok o2, w3) /\
    view rt_later 11 11 o2 w3 = (Ok (kp_tree 3 "one" []), w4).
Proof.
  pose proof cr_events as (H1 & H2 & H3). rewrite forallb_forall in H1, H2, H3.
  assert (Hin : forall ev, happened cr_start cr_end ev -> In ev (w_log cr_end)).
  { intros ev (evs & He & Hx). change (w_log cr_start) with (@nil event) in He. rewrite app_nil_r in He. rewrite He. exact Hx. }
  assert (Hin0 : forall ev, happened ex_world cr_saved ev -> In ev (w_log cr_saved)).
  { intros ev (evs & He & Hx). change (w_log ex_world) with (@nil event) in He. rewrite app_nil_r in He. rewrite He. exact Hx. }
  split; [reflexivity|]. split; [vm_compute; reflexivity|].
  split; [intros i Hx; apply Hin, H1 in Hx; discriminate Hx|].
  split; [intros i q Hx; apply Hin, H1 in Hx; discriminate Hx|].
  split; [intros l Hl Hx; apply Hin, H2 in Hx; apply Hin0, H3 in Hl; rewrite Hx in Hl; discriminate Hl|].
  split; [intros dir Hx; apply Hin, H2 in Hx; subst dir; vm_compute in Hx; discriminate Hx|].
  split; [exists (w_log cr_end); split; [change (w_log cr_start) with (@nil event); rewrite app_nil_r; reflexivity|vm_compute; repeat (first [left; reflexivity|right])]|].
  let v := eval vm_compute in (load rt_later 11 ex_opts ($"new") None None cr_end) in
  match v with (Ok ?o, ?w3) => let x := eval vm_compute in (view rt_later 11 11 o w3) in match x with (_, ?w4) => exists o, w3, w4 end end.
  split; vm_compute; reflexivity.
Qed.

Print Assumptions C50_previous_model_loads.
Print Assumptions C50_previous_loaded_model_loads.
