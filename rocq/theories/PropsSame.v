(** Saving leaves the object in memory as it was: C66. *)
From Coq Require Import List Ascii String Bool Arith ZArith Lia.
From Verif Require Import Base PosixModel FsModel PathModel SerialModel StoreModel TrackModel StoreMount StoreSpec StoreLocal StoreSave StoreExample SerialSpec RoundSpec KeepSpec SameSpec
     RoundProof DropProof SameProof ContextProof PathSpec MountSpec DirSpec PropsRound PropsKeep PropsDelete PropsTrack.
Import ListNotations.

Local Arguments str_eq_dec : simpl never.

(** ** C66 *)
Lemma saved_same E n p k o w o' j w' (U VM VC : list str -> list obj -> Prop) (WM WC : list obj -> list obj -> Prop) :
  (forall comps u n cx w r w1, s_clean E = true -> U comps u -> rm_all (depth E n) cx u w = (Ok r, w1) -> VM comps r) -> (forall comps u, s_clean E = false -> U comps u -> VM comps u) ->
  (forall comps, VC comps []) -> (forall comps u, s_clean E = false -> U comps u -> VC comps u) ->
  (forall comps u n cx w r w1, s_clean E = true -> U comps u -> rm_all (depth E n) cx u w = (Ok r, w1) -> WM u r) -> (s_clean E = false -> forall u, WM u u) ->
  (forall u, WC u []) -> (s_clean E = false -> forall u, WC u u) ->
  absolute (s_cwd E) -> absolute (o_base p) -> registered_classes E -> ordinary_uuids E -> faithful_methods E ->
  s_retouch E = $"auto" \/ s_retouch E = $"quit" -> s_validate E = true -> plain k ->
  well_formed (w_fs w) -> holds_with U E w (key_dir p k) [] o -> save E n p k o w = (Ok (o', j), w') ->
  same_with WM WC o (saved_content E o o') /\ holds_two VM VC E w' (key_dir p k) [] (saved_content E o o').
Proof.
  intros HVM HVM0 HVC HVC0 HM HM0 HC HC0 Hc Hb Hreg Huid Hfai Hret Hval Hk Hw Hbu H.
  assert (Hun : In (s_retouch E) unattended) by (destruct Hret as [-> | ->]; [left|right; left]; reflexivity).
  assert (Hst : stays E w w') by (pose proof (save_stays E Hc Hun n p k o w) as Hx; rewrite H in Hx; exact Hx).
  pose proof (save_inv_log E Hc Hun p k Hb n o w o' j w' [k]) as HS. cbn zeta in HS. cbn [removelast last app] in HS.
  destruct HS as (o1 & q & u & wa & wb & fs1 & fs2 & mt & Ho1 & _ & Hoka & Hser & _);
    [discriminate|constructor; [assumption|constructor]|reflexivity|assumption|assumption|].
  set (i := List.length (w_mounts w)) in *. set (D0 := key_dir p k) in *.
  assert (Hdir : absolute D0) by (apply key_dir_absolute; assumption).
  assert (Hbu1 : holds_with U E w D0 [] o1).
  { destruct Ho1 as [[-> _]|(-> & _)]; [assumption|]. unfold fresh_record. apply h_rec; [|apply auto_ordinary; assumption].
    intros sd [Hsd|[_ ->]]; [|exact Hbu]. cbn in Hsd. injection Hsd as <-. exact Hbu. }
  destruct (ser_same E i D0 Hc Hdir Hret Hval Hreg Huid w U VM VC HVM HVM0 HVC HVC0 WM WC HM HM0 HC HC0 n o1 false [] (mkCtx i []) wa o' j wb Hbu1) as (S1 & S2 & _);
    [discriminate|apply sctx_top|assumption|exact Hser|].
  enough (Hx : same_with WM WC o (saved_content E o o') /\ holds_two VM VC E w D0 [] (saved_content E o o')) by (split; [apply Hx|]; eapply stays_holds; [exact Hdir|exact Hst|apply Hx]).
  unfold saved_content. destruct Ho1 as [[-> ->]|(-> & -> & _)]; [auto|].
  unfold fresh_record in S1. inversion S1 as [|x1|x1|x1|x1|x1|c1 c' t1 t' pre1 Sc Ss|ty tt b cx1 t1 pre1]; subst; [split; [constructor|]| |inversion Hbu].
  { inversion S2 as [| | | | | | |cs1 c2 t2 pre2 Hc2 Ho2|cs1 ty path cx2 t2 pre2 Hp2 Hx2]; subst; [exact (Hc2 [] (or_introl eq_refl))|inversion Hbu]. }
  split; [assumption|]. inversion S2 as [| | | | | | |cs1 c2 t2 pre2 Hc2 Ho2|cs1 ty path cx2 t2 pre2 Hp2 Hx2]; subst; [|inversion Sc; subst; inversion Hbu].
  assert (Hsd : exists sd, (t_subdir t' = Some sd \/ t_subdir t' = None /\ sd = []) /\ filter named_component (components sd) = []).
  { unfold sub_of in Ss. cbn in Ss. destruct (t_subdir t') as [sd|]; [exists sd|exists []]; auto. }
  destruct Hsd as (sd & Hsd & Hse). specialize (Hc2 sd Hsd). rewrite Hse in Hc2. exact Hc2.
Qed.
Lemma removed_all_nil E n cx w r w1 : rm_all (depth E n) cx [] w = (Ok r, w1) -> r = [].
Proof. intros H. destruct cx; cbn in H; unfold ret in H; congruence. Qed.

(** When [save] returns, the object in memory is the object it was: the same values at the same places, so that
    a program that uses it sees the same, in whatever state the files are; and it can be saved again. *)
Theorem C66_saving_leaves_the_object : forall E n p k o w o' j w',
  absolute (s_cwd E) -> absolute (o_base p) -> registered_classes E -> ordinary_uuids E -> faithful_methods E ->
  s_retouch E = $"auto" \/ s_retouch E = $"quit" -> s_validate E = true -> plain k ->
  well_formed (w_fs w) -> holds_pending E w (key_dir p k) [] o -> save E n p k o w = (Ok (o', j), w') ->
  let left := saved_content E o o' in
  same_object o left /\ (forall K M w0, view E K M left w0 = view E K M o w0) /\
  holds_pending E w' (key_dir p k) [] left /\ (holds E w (key_dir p k) [] o -> holds E w' (key_dir p k) [] left).
Proof.
  intros E n p k o w o' j w' Hc Hb Hreg Huid Hfai Hret Hval Hk Hw Hbu H left.
  destruct (saved_same E n p k o w o' j w' (fun _ _ => True) (fun _ _ => True) (fun _ _ => True) (fun _ _ => True) (fun _ _ => True)) as [S1 S2]; try assumption; try (intros; exact I).
  split; [assumption|]. split; [intros K M w0; symmetry; eapply view_same; eassumption|]. split; [assumption|].
  intros Hh. apply (saved_same E n p k o w o' j w' (fun _ u => u = []) (fun _ u => u = []) (fun _ u => u = []) (fun _ _ => True) (fun _ _ => True)); try assumption; try (intros; exact I); try (intros; assumption); try reflexivity.
  intros comps u n0 cx w0 r w1 _ -> Hr. eapply removed_all_nil; eassumption.
Qed.
(** The object a track holds is the one that was loaded at the first access, and stays it, without reading the file again;
    saving leaves it as it was (a storable object that is no container: exactly). *)
Theorem C66_loaded_once : forall E n k p d df w o w1,
  load E n p k d df w = (Ok o, w1) -> o <> OAtom ANone ->
  exists t1, tk_get E n (new_track k p d df) w = ((Ok o, t1), w1) /\ forall n2 w2, tk_get E n2 t1 w2 = ((Ok o, t1), w2).
Proof.
  intros E n k p d df w o w1 H Hn. exists (mkTrk k p d df o). split.
  - unfold tk_get, tk_load, new_track. cbn [tk_content tk_opts tk_key tk_default tk_factory]. rewrite H. reflexivity.
  - intros n2 w2. unfold tk_get. cbn [tk_content]. destruct o as [[]| | | | | | | | | |]; try reflexivity. congruence.
Qed.
Theorem C66_track_saved : forall E n t w r t' w',
  absolute (s_cwd E) -> absolute (o_base (tk_opts t)) -> registered_classes E -> ordinary_uuids E -> faithful_methods E ->
  s_retouch E = $"auto" \/ s_retouch E = $"quit" -> s_validate E = true -> plain (tk_key t) ->
  well_formed (w_fs w) -> holds_pending E w (key_dir (tk_opts t) (tk_key t)) [] (tk_content t) -> tk_save E n false t w = ((Ok r, t'), w') ->
  tk_key t' = tk_key t /\ tk_opts t' = tk_opts t /\ same_object (tk_content t) (tk_content t') /\
  (forall K M w0, view E K M (tk_content t') w0 = view E K M (tk_content t) w0) /\
  (forall c x, tk_content t = OLeaf c x -> tk_content t' = OLeaf c x).
Proof.
  intros E n t w r t' w' Hc Hb Hreg Huid Hfai Hret Hval Hk Hw Hbu H. unfold tk_save in H.
  destruct (save E n (tk_opts t) (tk_key t) (tk_content t) w) as [[[o' j]|e] wx] eqn:Es; [|discriminate]. injection H as _ <- <-.
  destruct (C66_saving_leaves_the_object E n (tk_opts t) (tk_key t) (tk_content t) w o' j wx) as (S1 & S2 & _); try assumption. cbn [holding tk_key tk_opts tk_content].
  split; [reflexivity|]. split; [reflexivity|]. split; [assumption|]. split; [assumption|]. intros c x Hx. rewrite Hx in S1 |- *. inversion S1. congruence.
Qed.

(** ** An example *)
(** The model of the example of C40: records wait, an item was deleted, a new one was added; and a bare storable in a track. *)
Example C66_example : well_formed (w_fs kp_world) /\ holds_pending rt_env kp_world (key_dir ex_opts ($"new")) [] dl_model /\
  (exists o' j w', save rt_env 10 ex_opts ($"new") dl_model kp_world = (Ok (o', j), w') /\ saved_content rt_env dl_model o' <> dl_model) /\
  let t := mkTrk ($"new") ex_opts None None (blob "x") in
  holds_pending rt_env kp_world (key_dir (tk_opts t) (tk_key t)) [] (tk_content t) /\
  (exists r t' w', tk_save rt_env 10 false t kp_world = ((Ok r, t'), w') /\ w_fs w' <> w_fs kp_world) /\
  exists o w1, load rt_env 11 ex_opts ($"new") None None tr_world = (Ok o, w1) /\ o <> OAtom ANone.
Proof.
  split; [vm_compute; repeat constructor; cbn; intuition discriminate|]. split; [apply C40_example|]. split.
  { let x := eval vm_compute in (save rt_env 10 ex_opts ($"new") dl_model kp_world) in match x with (Ok (?o, ?j), ?w') => exists o, j, w' end.
    split; [vm_compute; reflexivity|]. vm_compute. discriminate. }
  intros t. split; [eapply h_leaf; reflexivity|]. split.
  - let x := eval vm_compute in (tk_save rt_env 10 false (mkTrk ($"new") ex_opts None None (blob "x")) kp_world) in match x with ((Ok ?r, ?t'), ?w') => exists r, t', w' end.
    split; [vm_compute; reflexivity|]. vm_compute. discriminate.
  - let a := eval vm_compute in (load rt_env 11 ex_opts ($"new") None None tr_world) in match a with (Ok ?o, ?w1) => exists o, w1 end.
    split; [vm_compute; reflexivity|]. discriminate.
Qed.

Print Assumptions C66_saving_leaves_the_object.
Print Assumptions C66_loaded_once.
Print Assumptions C66_track_saved.
