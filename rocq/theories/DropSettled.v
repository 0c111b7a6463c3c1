(** Removing deleted items that are in memory: exactly the files of their records are asked to be removed. *)
From Coq Require Import List Ascii String Bool Arith ZArith Lia.
From Verif Require Import Base PosixModel FsModel PathModel SerialModel StoreModel StoreFrame StoreMount StoreSpec StoreLocal StorePlace
     StoreRecord RoundSpec RoundProof KeepSpec CleanSpec CleanProof DropProof PathSpec MountSpec DirSpec PosixProof FsProof DirProof TargetProof MountProof HistoryProof PathFacts
     SerialSpec SerialProof.
Import ListNotations.

Local Arguments str_eq_dec : simpl never.
Local Arguments atom_eq_dec : simpl never.

Lemma places_unique t cs cs' : places t cs -> places t cs' -> cs = cs'.
Proof. intros (sd & nm & H1 & H2 & _ & _ & _ & ->) (sd' & nm' & H1' & H2' & _ & _ & _ & ->). congruence. Qed.

Section Settled.
Variable E : senv.
Variable i : nat.
Variable D0 : str.
Hypothesis Hcwd : absolute (s_cwd E).
Hypothesis Hdir : absolute D0.
Hypothesis Hret : s_retouch E = $"auto" \/ s_retouch E = $"quit".
Hypothesis Hval : s_validate E = true.
Let D := location (s_cwd E) D0.
Notation ok := (mnt_ok i D0).

(** From [w] to [w'] the files [S], and no other ones, are asked to be removed, and they are gone. *)
Definition Swept (S : list str -> Prop) (w w' : world) : Prop :=
  ok w' /\ (forall l, file_at (w_fs w) l = None -> file_at (w_fs w') l = None) /\
  (exists evs, w_log w' = evs ++ w_log w /\ forall j p, In (EvRemove j p) evs -> exists q, S q /\ requested (s_cwd E) D0 p = D ++ q) /\
  (D = comps_cp D0 -> forall q, S q -> file_at (w_fs w') (D ++ q) = None).
Lemma swept_refl (S : list str -> Prop) w : ok w -> (forall q, ~ S q) -> Swept S w w.
Proof.
  intros H HS. split; [assumption|]. split; [auto|]. split; [exists []; split; [reflexivity|intros j p []]|]. intros _ q Hq. exfalso. eapply HS. eassumption.
Qed.
Lemma swept_trans (S1 S2 S : list str -> Prop) a b c : Swept S1 a b -> Swept S2 b c -> (forall q, S q <-> S1 q \/ S2 q) -> Swept S a c.
Proof.
  intros (O1 & N1 & (e1 & L1 & P1) & F1) (O2 & N2 & (e2 & L2 & P2) & F2) HS. split; [assumption|]. split; [auto|]. split.
  - exists (e2 ++ e1). split; [rewrite L2, L1, app_assoc; reflexivity|]. intros j p Hp. apply in_app_or in Hp as [Hp|Hp].
    + destruct (P2 j p Hp) as (q & Q1 & Q2). exists q. split; [apply HS; auto|assumption].
    + destruct (P1 j p Hp) as (q & Q1 & Q2). exists q. split; [apply HS; auto|assumption].
  - intros HD q Hq. apply HS in Hq as [Hq|Hq]; auto.
Qed.
Lemma swept_iff (S S2 : list str -> Prop) a b : Swept S a b -> (forall q, S q <-> S2 q) -> Swept S2 a b.
Proof.
  intros (O1 & N1 & (e1 & L1 & P1) & F1) HS. split; [assumption|]. split; [auto|]. split.
  - exists e1. split; [assumption|]. intros j p Hp. destruct (P1 j p Hp) as (q & Q1 & Q2). exists q. split; [apply HS; auto|assumption].
  - intros HD q Hq. apply F1; [assumption|]. apply HS. assumption.
Qed.
Lemma swept_mapM {A C} (f : A -> M C) (S : A -> list str -> Prop) l :
  (forall x w y w', In x l -> ok w -> f x w = (Ok y, w') -> Swept (S x) w w') ->
  forall w ys w', ok w -> mapM f l w = (Ok ys, w') -> Swept (fun q => exists x, In x l /\ S x q) w w'.
Proof.
  induction l as [|x l IH]; intros Hf w ys w' Hok H.
  - injection H as <- <-. apply swept_refl; [assumption|]. intros q (x & [] & _).
  - cbn [mapM] in H. apply mbind_ok in H as (y & w1 & H1 & H). apply mbind_ok in H as (ys0 & w2 & H2 & H). unfold ret in H. injection H as <- <-.
    pose proof (Hf x w y w1 (or_introl eq_refl) Hok H1) as S1. pose proof (IH (fun a w y w' Ha => Hf a w y w' (or_intror Ha)) w1 ys0 w2 (proj1 S1) H2) as S2.
    eapply swept_trans; [exact S1|exact S2|]. intros q. split.
    + intros (z & [<-|Hz] & Hq); [auto|right; eauto].
    + intros [Hq|(z & Hz & Hq)]; [exists x; split; [left; reflexivity|assumption]|exists z; split; [right|]; assumption].
Qed.

(** The first access of a waiting record of a storable that is no container. *)
Lemma waiting_quiet n ty c tt b cx re w v c' re' w' : sto_ty E ty = Some (STLeaf c) ->
  rec_load E (depth E n) (OUnloaded (Some ty) tt b cx) re w = (Ok (v, c', re'), w') ->
  (exists evs, w_log w' = evs ++ w_log w /\ forall j p, ~ In (EvRemove j p) evs) /\ (forall q, file_at (w_fs w') q = file_at (w_fs w) q) /\ (exists d, c' = OLeaf c d).
Proof.
  intros Hty H. pose proof (load_unmarked E n (OUnloaded (Some ty) tt b cx) re w v c' re' w' Hval ltac:(discriminate) H) as Hmk. cbn [rec_load] in H.
  apply mbind_ok in H as (x & w1 & H & H1). assert (Hx : x = v /\ w1 = w' /\ c' = v).
  { destruct x; unfold ret in H1; injection H1 as <- <- <- <-; auto. exfalso. eapply Hmk. reflexivity. }
  destruct Hx as (-> & -> & ->). clear H1. unfold ctx_read in H. apply mbind_ok in H as (r & w2 & Ha & H). destruct r as [o|e].
  2:{ exfalso. assert (Hi : forall mk, (_ <- invalid_found E;; ret (OMark mk)) w2 <> (Ok v, w')).
      { intros mk Hq. apply mbind_ok in Hq as (u & w3 & Hq & _). apply invalid_ok in Hq as [_ Hq]. congruence. }
      destruct e; try (exact (Hi _ H)); cbn [is_ser_error] in H; discriminate. }
  unfold ret in H. injection H as -> ->. apply attempt_ok in Ha. apply mbind_ok in Ha as ([local nt] & w3 & Hp & Ha).
  apply mbind_ok in Ha as (l & w4 & Hl & Ha). assert (w4 = w3).
  { unfold ctx_path in Hl. apply mbind_ok in Hl as (y & w5 & Hy & Hl). unfold m_dir_of in Hy.
    destruct (nth_error (w_mounts w3) (c_mnt local)); [|discriminate]. injection Hy as _ <-.
    repeat match type of Hl with (_ <- _ ;; _) _ = _ => let z := fresh "z" in let wz := fresh "wz" in let Hz := fresh "Hz" in
      apply mbind_ok in Hl as (z & wz & Hz & Hl); unfold lift in Hz; assert (wz = w3) by congruence; subst wz end.
    unfold ret in Hl. congruence. }
  subst w4. assert (Hprep : exists j q, w3 = snd (m_prepare E j q (Some ($"_ignore")) w)).
  { unfold ctx_prepare in Hp. apply mbind_ok in Hp as (a & wx & Ha1 & Hp). unfold lift in Ha1. injection Ha1 as _ <-.
    apply mbind_ok in Hp as (q & wx & Ha1 & Hp). unfold lift in Ha1. injection Ha1 as _ <-. apply mbind_ok in Hp as (u & wx & Ha1 & Hp).
    assert (Hw : wx = w3).
    { apply mbind_ok in Hp as (nm & wy & Hn & Hp). unfold lift in Hn. injection Hn as _ <-. destruct (t_subdir u) as [s|]; [|discriminate].
      repeat match type of Hp with (_ <- _ ;; _) _ = _ => let w9 := fresh "w9" in apply mbind_ok in Hp as (? & w9 & Hn & Hp); unfold lift in Hn; assert (w9 = wx) by congruence; subst w9; clear Hn end.
      unfold ret in Hp. congruence. }
    subst wx. exists (c_mnt cx), q. rewrite Ha1. reflexivity. }
  destruct Hprep as (j & q & Hprep). destruct (m_prepare E j q (Some ($"_ignore")) w) as [r0 w30] eqn:Em. cbn [snd] in Hprep. subst w30.
  unfold read_storable in Ha. rewrite Hty in Ha. apply mbind_ok in Ha as (y & w5 & Hr & Ha). apply mbind_ok in Ha as (d & w6 & Hd & Ha).
  unfold lift in Hd. injection Hd as _ <-. unfold ret in Ha. injection Ha as <- <-.
  assert (H5 : w5 = logged (EvRead l) w3). { apply m_read_inv in Hr as [[Hr _]|[-> _]]; [discriminate|reflexivity]. }
  subst w5. split; [|split; [|eauto]].
  - apply m_prepare_inv in Em. destruct Em as [Hl0|Hn|m r1 fs m' inp Hm Hpp].
    + exists [EvRead l]. split; [reflexivity|]. intros j0 p0 [Hx|[]]; discriminate.
    + exists [EvRead l; EvPrepare j q]. split; [reflexivity|]. intros j0 p0 [Hx|[Hx|[]]]; discriminate.
    + exists [EvRead l; EvPrepare j q]. split; [reflexivity|]. intros j0 p0 [Hx|[Hx|[]]]; discriminate.
  - intros q0. cbn [logged w_fs]. apply m_prepare_inv in Em. destruct Em as [Hl0|Hn|m r1 fs m' inp Hm Hpp]; [reflexivity|reflexivity|].
    cbn [w_fs]. eapply prepare_files. eassumption.
Qed.

Lemma placed_sub cx comps t cs : rctx i comps cx -> places t cs ->
  exists a p, ctx_absolute cx t = Ok a /\ fspath a = Ok p /\ requested (s_cwd E) D0 p = D ++ comps ++ cs /\
    rctx i (comps ++ sub_of t) (ctx_join cx match t_subdir a with Some d => d | None => [] end).
Proof.
  intros [Hi [Hab Hre]] (sd & nm & Hd & Hn & Hpl & Ha & Hdd & ->). pose proof Hpl as Hp0. apply plain_clean in Hp0. destruct Hp0 as (_ & _ & _ & Hns).
  destruct t as [d0 st su]. cbn in Hd. subst d0. unfold t_name in Hn. cbn in Hn. destruct st as [sa|]; [|discriminate].
  destruct su as [sb|]; [|discriminate]. injection Hn as Hn. set (sub := join2 (c_sub cx) sd).
  assert (Hsub : reaches sub (comps ++ filter named_component (components sd))) by (apply reaches_join; [split|..]; assumption).
  exists (mkTarget (Some sub) (Some sa) (Some sb)), (join2 sub nm). split; [reflexivity|]. split; [rewrite <- Hn; reflexivity|]. split.
  - rewrite requested_join2, location_join2_any. destruct Hsub as [S1 S2]. rewrite isabs_join2_rel by (assumption || (apply noslash_not_isabs; assumption)).
    rewrite walk_rel by (apply noslash_not_isabs; assumption). rewrite S2, split_noslash by assumption. unfold walk. cbn [fold_left].
    rewrite walk_step_clean by (apply plain_clean; assumption). unfold D. rewrite <- !app_assoc. reflexivity.
  - cbn [t_subdir sub_of]. unfold ctx_join. unfold sub_of. cbn [t_subdir]. destruct sub as [|x r] eqn:Es; [|split; [exact Hi|exact Hsub]]. split; [exact Hi|].
    assert (Hcs : c_sub cx = []).
    { unfold sub, join2 in Es. destruct (isabs sd) eqn:Ei; [exfalso; apply Ha; apply absolute_isabs; assumption|]. destruct (c_sub cx) as [|y r']; [reflexivity|].
      destruct (ends_sep (y :: r')); discriminate Es. }
    rewrite Hcs. exact Hsub.
Qed.
Lemma remove_swept p rest w r w1 : rest <> [] -> ok w -> requested (s_cwd E) D0 p = D ++ rest -> attempt (m_remove E i p) w = (Ok r, w1) ->
  (r = Ok tt \/ r = Exn MountException) -> Swept (fun q => q = rest) w w1.
Proof.
  intros Hne Hok Hreq H Hr. unfold attempt in H. pose proof (dropped_remove E i D0 Hcwd Hdir p w) as Hd. pose proof (made_remove E i p w) as Hmd.
  destruct (m_remove E i p w) as [r0 wr] eqn:Em. cbn [snd] in Hd, Hmd. injection H as -> <-. destruct (Hd Hok) as (Hok1 & e1 & L1 & N1 & _).
  destruct Hmd as (_ & e2 & L2 & F2). assert (e2 = e1) by (rewrite L1 in L2; apply app_inv_tail in L2; congruence). subst e2.
  split; [assumption|]. split; [intros l Hl; destruct (F2 l Hl) as [Hx|Hx]; [assumption|exfalso; eapply N1; eassumption]|].
  apply m_remove_inv in Em. split.
  - destruct Em as [Hl|Hn|m r0 fs m' Hm Hpr].
    + exists []. split; [reflexivity|]. intros j q [].
    + exists [EvRemove i p]. split; [reflexivity|]. intros j q [Hx|[]]. injection Hx as <- <-. eauto.
    + exists [EvRemove i p]. split; [reflexivity|]. intros j q [Hx|[]]. injection Hx as <- <-. eauto.
  - intros HD q ->. destruct Em as [Hl|Hn|m r0 fs m' Hm Hpr].
    + destruct Hr as [Hr|Hr]; discriminate Hr.
    + destruct Hr as [Hr|Hr]; discriminate Hr.
    + destruct Hok as [(m0 & Hm0 & Hd0 & Htk) Hw]. rewrite Hm in Hm0. injection Hm0 as <-.
      destruct (untrack_in E Hcwd m p rest) as [m1 Hu]; [rewrite Hd0; assumption|assumption|rewrite Hd0; exact HD|rewrite Hd0; exact Hreq|].
      cbn [w_fs]. destruct (mount_remove_cases _ _ _ _ _ _ _ _ Hcwd Hpr) as [(e & Hx & _)|[(_ & Hx & _)|(_ & _ & _ & _ & Hx)]].
      * congruence.
      * destruct Hr as [Hr|Hr]; congruence.
      * rewrite Hd0, Hreq in Hx. assert (Hn0 : D ++ rest <> []) by (intros Hy; apply app_eq_nil in Hy as [_ Hy]; contradiction).
        specialize (Hx Hn0). unfold exists_at in Hx. unfold file_at. destruct (lookup fs (D ++ rest)); [discriminate|reflexivity].
Qed.

Section Step.
Variable n : nat.
Hypothesis IH : forall comps cx x w o' w', at_rest E x -> rctx i comps cx -> ok w -> f_rm (depth E n) cx x w = (Ok o', w') -> Swept (files_of E comps x) w w'.

Lemma fields_swept comps cx fds : rctx i comps cx -> NoDup (map mf_name fds) ->
  forall fs w fs' w', (forall f v, In f fds -> mf_noser f = false -> assoc (mf_name f) fs = Some v -> at_rest E v) -> ok w ->
  rm_fields (depth E n) cx fds fs w = (Ok fs', w') ->
  Swept (fun q => exists f v, In f fds /\ mf_noser f = false /\ assoc (mf_name f) fs = Some v /\ files_of E comps v q) w w'.
Proof.
  intros Hc. induction fds as [|f fds IHf]; intros Hnd fs w fs' w' Hs Hok H; cbn [rm_fields] in H.
  - unfold ret in H. injection H as <- <-. apply swept_refl; [assumption|]. intros q (f & v & [] & _).
  - inversion Hnd as [|? ? Hnin Hnd']; subst. destruct (mf_noser f) eqn:Eno.
    + eapply swept_iff; [eapply IHf; try eassumption|].
      * intros f0 v Hf0. apply Hs. right. assumption.
      * intros q. split; intros (f0 & v & Hf0 & Hx & Hy); [exists f0, v; split; [right|]; auto|]. destruct Hf0 as [<-|Hf0]; [congruence|]. exists f0, v. auto.
    + destruct (assoc (mf_name f) fs) as [v|] eqn:Ea; [|discriminate]. apply mbind_ok in H as (v' & w1 & H1 & H).
      pose proof (IH comps cx v w v' w1 (Hs f v (or_introl eq_refl) Eno Ea) Hc Hok H1) as S1.
      assert (Hoth : forall f0, In f0 fds -> assoc (mf_name f0) (assoc_set (mf_name f) v' fs) = assoc (mf_name f0) fs).
      { intros f0 Hf0. apply assoc_set_other. intros Hx. apply Hnin. replace (mf_name f) with (mf_name f0) by congruence. apply in_map. assumption. }
      eapply swept_trans; [exact S1|eapply IHf; [assumption| |apply S1|exact H]|].
      * intros f0 v0 Hf0 Hno Ha. rewrite Hoth in Ha by assumption. apply (Hs f0 v0); [right; assumption|assumption|assumption].
      * intros q. split.
        -- intros (f0 & v0 & [<-|Hf0] & Hno & Ha & Hq); [left; congruence|right]. exists f0, v0. rewrite Hoth by assumption. auto.
        -- intros [Hq|(f0 & v0 & Hf0 & Hno & Ha & Hq)]; [exists f, v; split; [left; reflexivity|auto]|]. rewrite Hoth in Ha by assumption. exists f0, v0. split; [right|]; auto.
Qed.

Lemma rec_swept comps cx content t pre we re cs w o' w' : at_rest E content \/ (exists ty tt b c1 c, content = OUnloaded (Some ty) tt b c1 /\ sto_ty E ty = Some (STLeaf c)) ->
  places t cs -> rctx i comps cx -> ok w -> rm_rec E (depth E n) cx content t pre we re w = (Ok o', w') -> Swept (files_of E comps (ORec content t pre we re)) w w'.
Proof.
  intros Hcon Hp Hc Hok H. unfold rm_rec in H. apply mbind_ok in H as ([[v c'] re'] & w1 & H1 & H).
  destruct (load_dropped E i D0 Hcwd Hdir Hret _ _ _ _ _ _ H1 Hok) as [Hok1 _].
  assert (Hload : Swept (fun _ => False) w w1 /\ (at_rest E c' /\ forall q, files_of E (comps ++ sub_of t) content q <-> files_of E (comps ++ sub_of t) c' q) /\ forall m, v <> OMark m).
  { destruct Hcon as [Hs|(ty & tt & b & c1 & c & -> & Hty)].
    - assert (Hw : w1 = w /\ c' = content /\ v = content) by (inversion Hs; subst; cbn [rec_load] in H1; unfold ret in H1; injection H1 as <- <- _ <-; auto).
      destruct Hw as (-> & -> & ->). split; [apply swept_refl; auto|]. split; [split; [assumption|reflexivity]|]. intros m ->. inversion Hs.
    - pose proof (load_unmarked E n (OUnloaded (Some ty) tt b c1) re w v c' re' w1 Hval ltac:(discriminate) H1) as Hmk.
      destruct (waiting_quiet _ _ _ _ _ _ _ _ _ _ _ _ Hty H1) as ((evs & Hl & He) & Hf & (d & ->)). split; [|split; [split; [constructor|]|exact Hmk]].
      + split; [assumption|]. split; [intros l Hx; rewrite Hf; assumption|]. split; [exists evs; split; [assumption|]; intros j p Hx; exfalso; eapply He; eassumption|]. intros _ q [].
      + intros q. split; intros Hx; inversion Hx. }
  destruct Hload as (S1 & (Hs & Hfo) & Hv). clear H1.
  assert (H' : (t' <- rec_target E c' t;; a <- lift (ctx_absolute cx t');; p <- lift (fspath a);; r <- attempt (m_remove E (c_mnt cx) p);;
      _ <- match r with Ok _ | Exn MountException => ret tt | Exn e => raise e end;;
      v' <- f_rm (depth E n) (ctx_join cx match t_subdir a with Some d => d | None => [] end) c';; ret (ORec v' t' pre we re')) w1 = (Ok o', w')).
  { destruct v; try exact H. exfalso. eapply Hv. reflexivity. }
  clear H. apply mbind_ok in H' as (t' & w2 & H2 & H).
  assert (Ht : t' = t /\ w2 = w1).
  { destruct Hp as (sd & nm & P1 & P2 & _). unfold rec_target in H2. destruct t as [s0 s1 s2]. cbn in P1. subst s0. unfold t_name in P2. cbn in P2.
    destruct s1 as [s1|]; [|discriminate]. destruct s2 as [s2|]; [|discriminate]. cbn in H2. unfold ret in H2. injection H2 as <- <-. auto. }
  destruct Ht as [-> ->]. clear H2. destruct (placed_sub cx comps t cs Hc Hp) as (a & p & A1 & A2 & A3 & A4).
  assert (Hne : comps ++ cs <> []).
  { destruct Hp as (sd & nm & _ & _ & _ & _ & _ & ->). intros Hx. apply app_eq_nil in Hx as [_ Hx]. apply app_eq_nil in Hx as [_ Hx]. discriminate. }
  apply mbind_ok in H as (a' & w2 & H2 & H). unfold lift in H2. rewrite A1 in H2. injection H2 as <- <-.
  apply mbind_ok in H as (p' & w2 & H2 & H). unfold lift in H2. rewrite A2 in H2. injection H2 as <- <-.
  apply mbind_ok in H as (r & w2 & H2 & H). apply mbind_ok in H as (u & w3 & H3 & H). apply mbind_ok in H as (v' & w4 & H4 & H). unfold ret in H. injection H as _ <-.
  pose proof Hc as [Hi _]. rewrite Hi in H2.
  assert (Hr : r = Ok tt \/ r = Exn MountException) by (destruct r as [[]|e]; [auto|destruct e; try discriminate H3; auto]).
  assert (w3 = w2) by (destruct Hr as [->| ->]; unfold ret in H3; injection H3; auto). subst w3.
  pose proof (remove_swept p (comps ++ cs) w1 r w2 Hne Hok1 A3 H2 Hr) as S2.
  pose proof (IH _ _ _ _ _ _ Hs A4 (proj1 S2) H4) as S3.
  eapply swept_trans; [exact S1|apply (swept_trans _ _ (fun q => q = comps ++ cs \/ files_of E (comps ++ sub_of t) c' q) _ _ _ S2 S3); intros q; reflexivity|]. intros q. cbn beta. rewrite <- Hfo. split.
  - intros Hq. right. inversion Hq as [| | | | |cs0 c0 t0 pr0 we0 re0 cs1 Hp1|cs0 c0 t0 pr0 we0 re0 q0 Hq0]; subst; [left|right; assumption].
    f_equal. eapply places_unique; eassumption.
  - intros [[]|[->|Hq]]; [apply fo_record; assumption|apply fo_content; assumption].
Qed.

Lemma step_swept comps cx x w o' w' : at_rest E x -> rctx i comps cx -> ok w -> f_rm (depth E (S n)) cx x w = (Ok o', w') -> Swept (files_of E comps x) w w'.
Proof.
  intros Hs Hc Hok H. cbn [depth f_rm] in H. unfold rm_body in H.
  inversion Hs as [a|l Hl|d Hd|c d|c fs fds Hk Hn Hf|p s u Hl|p s u Hl|content t pre we re cs Hcn Hp|ty tt b c1 c t pre we re cs Hty Hp]; subst.
  - unfold ret in H. injection H as _ <-. apply swept_refl; [assumption|]. intros q Hq. inversion Hq.
  - apply mbind_ok in H as (l' & w1 & H1 & H). unfold ret in H. injection H as _ <-.
    eapply swept_iff; [eapply (swept_mapM _ (files_of E comps)); [|exact Hok|exact H1]; intros y w0 z w2 Hy Hok0 Hz; eapply IH; eauto|].
    intros q. split; [intros (y & Hy & Hq); econstructor; eassumption|]. intros Hq. inversion Hq; subst. eauto.
  - apply mbind_ok in H as (l' & w1 & H1 & H). unfold ret in H. injection H as _ <-.
    eapply swept_iff; [eapply (swept_mapM _ (fun kv => files_of E comps (snd kv))); [|exact Hok|exact H1]; intros [k y] w0 z w2 Hy Hok0 Hz|].
    { apply mbind_ok in Hz as (v & w3 & Hz & Hz2). unfold ret in Hz2. injection Hz2 as _ <-. eapply IH; [|exact Hc|exact Hok0|exact Hz]. eapply Hd. exact Hy. }
    intros q. split; [intros ([k y] & Hy & Hq); econstructor; eassumption|]. intros Hq. inversion Hq as [|cs0 d0 k y q0 Hy Hq0| | | | |]; subst. exists (k, y). auto.
  - unfold ret in H. injection H as _ <-. apply swept_refl; [assumption|]. intros q Hq. inversion Hq.
  - apply mbind_ok in H as (u' & w1 & H1 & H). assert (w1 = w) by (destruct (s_clean E); cbn [mapM] in H1; unfold ret in H1; injection H1; auto). subst w1.
    rewrite Hk in H. apply mbind_ok in H as (fs' & w1 & H2 & H). unfold ret in H. injection H as _ <-.
    eapply swept_iff; [eapply fields_swept; eassumption|]. intros q. split; [intros (f & v & Hf0 & Hno & Ha & Hq); econstructor; eassumption|].
    intros Hq. inversion Hq as [| |cs0 c0 fs0 u0 fds0 f v q0 Hk0 Hf0 Hno Ha Hq0| | | |]; subst. rewrite Hk in Hk0. injection Hk0 as <-. exists f, v. auto.
  - apply mbind_ok in H as (l' & w1 & H1 & H). unfold ret in H. injection H as _ <-.
    eapply swept_iff; [eapply (swept_mapM _ (files_of E comps)); [|exact Hok|exact H1]; intros y w0 z w2 Hy Hok0 Hz; eapply IH; eauto|].
    intros q. split; [intros (y & Hy & Hq); econstructor; eassumption|]. intros Hq. inversion Hq; subst. eauto.
  - apply mbind_ok in H as (l' & w1 & H1 & H). unfold ret in H. injection H as _ <-.
    eapply swept_iff; [eapply (swept_mapM _ (fun kv => files_of E comps (snd kv))); [|exact Hok|exact H1]; intros [k y] w0 z w2 Hy Hok0 Hz|].
    { apply mbind_ok in Hz as (v & w3 & Hz & Hz2). unfold ret in Hz2. injection Hz2 as _ <-. eapply IH; [|exact Hc|exact Hok0|exact Hz]. eapply Hl. exact Hy. }
    intros q. split; [intros ([k y] & Hy & Hq); econstructor; eassumption|]. intros Hq. inversion Hq as [| | | |cs0 p0 s0 u0 k y q0 Hy Hq0| |]; subst. exists (k, y). auto.
  - eapply rec_swept; eauto.
  - eapply rec_swept; eauto 10.
Qed.
End Step.

Theorem rm_swept n : forall comps cx x w o' w', at_rest E x -> rctx i comps cx -> ok w -> f_rm (depth E n) cx x w = (Ok o', w') -> Swept (files_of E comps x) w w'.
Proof. induction n as [|n IH]; [discriminate|apply step_swept; exact IH]. Qed.
Theorem rm_all_swept n comps cx u w r w' : Forall (at_rest E) u -> sctx i comps cx -> ok w -> rm_all (depth E n) (Some cx) u w = (Ok r, w') ->
  Swept (fun q => exists x, In x u /\ files_of E comps x q) w w'.
Proof.
  intros Hu (Hi & Hs & Hc) Hok H. cbn [rm_all] in H. eapply (swept_mapM _ (files_of E comps)); [|exact Hok|exact H].
  intros x w0 y w1 Hx Hok0 Hy. rewrite Forall_forall in Hu. eapply rm_swept; [apply Hu; assumption| |assumption|exact Hy]. split; [assumption|]. rewrite Hs. split.
  - apply isabs_join_clean. assumption.
  - intros here. destruct comps as [|a l]; [cbn; rewrite app_nil_r; reflexivity|]. rewrite split_join; [apply walk_clean_app; assumption|apply clean_split; assumption|discriminate].
Qed.
End Settled.
