(** Removing a loaded model: exactly the files that its serialization wrote go away. *)
From Coq Require Import List Ascii String Bool Arith ZArith Lia.
From Verif Require Import Base PosixModel FsModel PathModel SerialModel StoreModel StoreFrame StoreMount StoreSpec StoreLocal StorePlace
     StoreRecord RoundSpec RoundProof KeepSpec CleanSpec PathSpec MountSpec DirSpec PosixProof FsProof DirProof TargetProof MountProof HistoryProof PathFacts SerialSpec SerialProof.
Import ListNotations.

Local Arguments str_eq_dec : simpl never.
Local Arguments atom_eq_dec : simpl never.

(** ** Sets of files *)
Notation files := (loc -> content -> Prop).
Definition none (g : files) : Prop := forall l c, ~ g l c.
(** [g] consists of the disjoint [g1] and [g2]. *)
Definition joined (g1 g2 g : files) : Prop := (forall l c, g l c <-> g1 l c \/ g2 l c) /\ (forall l c c', g1 l c -> ~ g2 l c').
Inductive Parts {A} (P : files -> A -> Prop) : files -> list A -> Prop :=
| parts_nil g : none g -> Parts P g []
| parts_cons g1 g2 g a l : P g1 a -> Parts P g2 l -> joined g1 g2 g -> Parts P g (a :: l).
Lemma Parts_impl {A} (P Q : files -> A -> Prop) g l : (forall g a, In a l -> P g a -> Q g a) -> Parts P g l -> Parts Q g l.
Proof.
  intros H Hp. induction Hp as [g Hn|g1 g2 g a l Ha Hl IH Hj]; [constructor; assumption|].
  econstructor; [apply H; [left; reflexivity|eassumption]|apply IH; intros; apply H; [right|]; assumption|assumption].
Qed.

Section Remove.
Variable E2 : senv.
Variable D0 : str.
Hypothesis Hcwd : absolute (s_cwd E2).
Hypothesis Hdir : absolute D0.
Hypothesis Hlim : s_limit E2 = None.
Let D := location (s_cwd E2) D0.

Definition keeps (w w' : world) : Prop := forall j D1, absolute D1 -> mnt_ok j D1 w -> mnt_ok j D1 w'.
Definition cleared (g : files) (w w' : world) : Prop :=
  (forall l c, g l c -> file_at (w_fs w') l = None) /\
  (forall l, (forall c, ~ g l c) -> file_at (w_fs w') l = file_at (w_fs w) l) /\ keeps w w'.
(** The sub directory of a context may be written in any way. *)
Definition reaches (sub : str) (comps : list str) : Prop := isabs sub = false /\ forall here, walk here (split_sep sub) = here ++ comps.
Definition rctx (j : nat) (comps : list str) (cx : ctx) : Prop := c_mnt cx = j /\ reaches (c_sub cx) comps.
(** Removing [o], whose waiting records look into mount [j], from a context at [comps] deletes the files [g]. *)
Definition Rm (n : nat) (g : files) (j : nat) (comps : list str) (o : obj) : Prop :=
  forall K jj cx w, n < K -> rctx jj comps cx -> mnt_ok j D0 w -> mnt_ok jj D0 w -> has g w ->
  exists o' w', f_rm (depth E2 K) cx o w = (Ok o', w') /\ cleared g w w'.
(** Deserializing [p] gives an object with the files [g]. *)
Definition alike (b : bool * bool) (o : obj) : Prop := is_storable E2 o = fst b /\ (snd b = true -> is_removable o = true).
Definition Clr (n : nat) (g : files) (comps : list str) (x : option dty) (p : pser) (b : bool * bool) : Prop :=
  forall K j cx w, n <= K -> sctx j comps cx -> mnt_ok j D0 w -> has g w ->
  exists o w', f_de (depth E2 K) (Some cx) x p w = (Ok o, w') /\ quiet w w' /\ Rm n g j comps o /\ alike b o /\ (x <> None -> direct o).

Lemma Clr_weak n g comps x p b r : Clr n g comps x p (b, r) -> Clr n g comps x p (b, false).
Proof.
  intros H K j cx w HK Hs Hok Hh. destruct (H K j cx w HK Hs Hok Hh) as (o & w' & H1 & H2 & H3 & [H4 _] & H5).
  exists o, w'. repeat (split; [assumption|]). split; [split; [exact H4|discriminate]|exact H5].
Qed.
Lemma keeps_refl w : keeps w w. Proof. intros j D1 _ H. exact H. Qed.
Lemma keeps_trans a b c : keeps a b -> keeps b c -> keeps a c. Proof. intros H G j D1 HD H1. auto. Qed.
Lemma keeps_ok j a b : keeps a b -> mnt_ok j D0 a -> mnt_ok j D0 b. Proof. intros H. apply H. exact Hdir. Qed.
Lemma quiet_keeps a b : quiet a b -> keeps a b. Proof. intros [_ H]. exact H. Qed.
Lemma cleared_none (g : files) w : none g -> cleared g w w.
Proof. intros Hn. split; [intros l c H; exfalso; eapply Hn; exact H|]. split; [reflexivity|apply keeps_refl]. Qed.
Lemma cleared_has (g g2 : files) w w' : (forall l c c', g l c -> ~ g2 l c') -> cleared g w w' -> has g2 w -> has g2 w'.
Proof. intros Hd (_ & H2 & _) Hh l c Hl. rewrite H2; [auto|]. intros c' Hc. exact (Hd l c' c Hc Hl). Qed.
Lemma cleared_join (g1 g2 g : files) a b c : joined g1 g2 g -> cleared g1 a b -> cleared g2 b c -> cleared g a c.
Proof.
  intros [Hg Hd] (H1 & H2 & H3) (G1 & G2 & G3). split; [|split; [|eapply keeps_trans; eassumption]].
  - intros l x Hl. apply Hg in Hl as [Hl|Hl]; [|eauto]. rewrite G2; [eauto|]. intros y. eapply Hd. exact Hl.
  - intros l Hl. rewrite G2, H2; [reflexivity| |]; intros y Hy; apply (Hl y), Hg; auto.
Qed.
Lemma cleared_quiet (g : files) a b c : quiet a b -> cleared g b c -> cleared g a c.
Proof. intros [Q1 Q2] (H1 & H2 & H3). split; [assumption|]. split; [intros l Hl; rewrite H2, Q1 by assumption; reflexivity|]. eapply keeps_trans; [exact Q2|exact H3]. Qed.
Lemma has_left (g1 g2 g : files) w : joined g1 g2 g -> has g w -> has g1 w. Proof. intros [H _] Hh l c Hl. apply Hh, H. auto. Qed.
Lemma has_right (g1 g2 g : files) w : joined g1 g2 g -> has g w -> has g2 w. Proof. intros [H _] Hh l c Hl. apply Hh, H. auto. Qed.
Lemma sctx_rctx j comps cx : sctx j comps cx -> rctx j comps cx.
Proof.
  intros (H1 & H2 & H3). split; [assumption|]. rewrite H2. split; [apply isabs_join_clean; assumption|]. intros here.
  destruct comps as [|x r] eqn:Ec; [cbn; rewrite app_nil_r; reflexivity|]. rewrite <- Ec in *.
  rewrite split_join; [apply walk_clean_app; assumption|apply clean_split; assumption|rewrite Ec; discriminate].
Qed.
Lemma reaches_join sub comps sd : reaches sub comps -> ~ absolute sd -> no_dotdot sd -> reaches (join2 sub sd) (comps ++ filter named_component (components sd)).
Proof.
  intros [H1 H2] Ha Hn. apply isabs_absolute in Ha. split; [apply isabs_join2_rel; assumption|]. intros here.
  rewrite walk_rel, H2 by assumption. rewrite walk_filter, walk_clean_app by (apply filter_clean; assumption).
  rewrite filter_named, components_split, <- app_assoc. reflexivity.
Qed.

(** *** Deleting one file *)
Lemma remove_keeps jj p w r w' : m_remove E2 jj p w = (r, w') -> keeps w w'.
Proof.
  intros H j D1 HD1 Hok. destruct (Nat.eq_dec j jj) as [->|Hne].
  - pose proof (only_remove E2 jj D1 Hcwd HD1 (fun _ => True) (fun _ _ => I) p w r w' Hok H) as (_ & _ & H3). auto.
  - apply m_remove_inv in H. destruct H as [Hl|Hn|m r fs m' Hm Hp]; [assumption|exact Hok|].
    destruct Hok as [(m0 & M1 & M2 & M3) Hw]. split; [|cbn [w_fs]; eapply mount_remove_wf; eassumption].
    exists m0. cbn [w_mounts]. rewrite nth_set_nth. destruct (Nat.eq_dec j jj); [contradiction|]. auto.
Qed.
Lemma m_remove_file jj p w rest c : D = comps_cp D0 -> rest <> [] -> mnt_ok jj D0 w -> requested (s_cwd E2) D0 p = D ++ rest ->
  file_at (w_fs w) (D ++ rest) = Some c ->
  exists w', m_remove E2 jj p w = (Ok tt, w') /\ (forall q, file_at (w_fs w') q = if loc_eq_dec q (D ++ rest) then None else file_at (w_fs w) q).
Proof.
  intros HD Hne Hok Hreq Hf. destruct (m_remove E2 jj p w) as [r w'] eqn:Em.
  pose proof Em as Em'. unfold m_remove in Em'. rewrite op_free in Em' by assumption.
  destruct Hok as [(m & M1 & M2 & M3) Hw]. cbn [logged w_mounts w_fs] in Em'. rewrite M1 in Em'.
  destruct (mount_remove (s_cwd E2) (w_fs w) m p true) as [r0 [fs0 m0]] eqn:Er.
  injection Em' as <- <-. 
  assert (Hda : absolute (m_dir m)) by (rewrite M2; assumption).
  assert (Hu : exists m1, untrack (s_cwd E2) m p true = Ok m1).
  { destruct (untrack_spec (s_cwd E2) m p Hcwd Hda M3) as [[_ Hx]|(t & rr & m1 & _ & _ & _ & Hu & _)]; [|eauto]. exfalso.
    rewrite M2 in Hx. unfold normalize, mount_abspath in Hx. rewrite contains_eq in Hx by assumption.
    rewrite <- requested_join2, Hreq, HD in Hx.
    assert (Hpre : is_prefix (comps_cp D0) (comps_cp D0 ++ rest) = true) by (apply is_prefix_iff; eexists; reflexivity).
    rewrite Hpre in Hx. cbn [bind] in Hx.
    assert (Hc : contains (s_cwd E2) D0 (join2 D0 p) = Ok true) by (rewrite contains_eq, <- requested_join2, Hreq, HD, Hpre by assumption; reflexivity).
    apply contains_true in Hc as (_ & rr & H1 & H2); [|assumption|assumption].
    rewrite (relpath_below (s_cwd E2) _ D0 rr) in Hx;
      [discriminate|assumption|apply absolute_nonnil; assumption|apply join2_nonnil; assumption|assumption|assumption]. }
  destruct Hu as [m1 Hu].
  assert (Hlk : lookup (w_fs w) (D ++ rest) = Some (File c)).
  { unfold file_at in Hf. destruct (lookup _ _) as [[|]|]; congruence. }
  unfold mount_remove in Er. rewrite Hu, requested_os, M2, Hreq, Hlk in Er by assumption. injection Er as <- <- <-.
  eexists. split; [reflexivity|]. cbn [w_fs]. intros q.
  destruct (delete_leaf (w_fs w) (D ++ rest)) as (F1 & _ & F3); [left; eauto|].
  destruct (loc_eq_dec q (D ++ rest)) as [->|Hq]; [|apply F1; assumption].
  assert (Hn0 : D ++ rest <> []) by (destruct D; destruct rest; cbn; congruence). specialize (F3 Hn0).
  unfold exists_at in F3. unfold file_at. destruct (lookup (delete_at (w_fs w) (D ++ rest)) (D ++ rest)); [discriminate F3|reflexivity].
Qed.

(** *** Lists of objects *)
Lemma mapM_clr n comps g ps : Parts (fun g p => Clr n g comps None p (false, false)) g ps -> forall K j cx w, n <= K -> sctx j comps cx -> mnt_ok j D0 w -> has g w ->
  exists os w', mapM (f_de (depth E2 K) (Some cx) None) ps w = (Ok os, w') /\ quiet w w' /\ Parts (fun g o => Rm n g j comps o) g os /\
    Forall (fun o => is_storable E2 o = false) os /\ List.length os = List.length ps.
Proof.
  induction 1 as [g Hn|g1 g2 g p ps Hp Hps IH Hj]; intros K j cx w HK Hs Hok Hh.
  - exists [], w. split; [reflexivity|]. split; [apply quiet_refl|]. split; [constructor; assumption|]. split; [constructor|reflexivity].
  - destruct (Hp K j cx w HK Hs Hok (has_left _ _ _ _ Hj Hh)) as (o & w1 & H1 & H2 & H3 & [H4 _] & _).
    destruct (IH K j cx w1 HK Hs (quiet_ok D0 Hdir _ _ _ H2 Hok) (quiet_has _ _ _ H2 (has_right _ _ _ _ Hj Hh))) as (os & w2 & G1 & G2 & G3 & G4 & G5).
    exists (o :: os), w2. split; [|split; [eapply quiet_trans; eassumption|split; [econstructor; eassumption|split; [constructor; assumption|cbn; congruence]]]].
    cbn [mapM]. unfold mbind. rewrite H1, G1. reflexivity.
Qed.
Lemma mapM_rm n j comps g os : Parts (fun g o => Rm n g j comps o) g os -> forall K jj cx w, n < K -> rctx jj comps cx -> mnt_ok j D0 w -> mnt_ok jj D0 w -> has g w ->
  exists os' w', mapM (f_rm (depth E2 K) cx) os w = (Ok os', w') /\ cleared g w w'.
Proof.
  induction 1 as [g Hn|g1 g2 g o os Ho Hos IH Hj]; intros K jj cx w HK Hs Hok Hok2 Hh.
  - exists [], w. split; [reflexivity|apply cleared_none; assumption].
  - destruct (Ho K jj cx w HK Hs Hok Hok2 (has_left _ _ _ _ Hj Hh)) as (o' & w1 & H1 & H2).
    assert (Hk : keeps w w1) by apply H2.
    destruct (IH K jj cx w1 HK Hs (keeps_ok _ _ _ Hk Hok) (keeps_ok _ _ _ Hk Hok2)) as (os' & w2 & G1 & G2).
    { eapply cleared_has; [apply Hj|exact H2|eapply has_right; eassumption]. }
    exists (o' :: os'), w2. split; [cbn [mapM]; unfold mbind; rewrite H1, G1; reflexivity|]. eapply cleared_join; eassumption.
Qed.
Lemma seq_fold_plain vs : forall q s, Forall (fun o => is_storable E2 o = false) vs -> fold_left (seq_append E2) vs (q, s) = (q, s ++ vs).
Proof.
  induction vs as [|v vs IH]; intros q s H; [cbn; rewrite app_nil_r; reflexivity|]. inversion H as [|? ? H1 H2]; subst.
  cbn [fold_left]. unfold seq_append at 2. rewrite H1, IH by assumption. rewrite <- app_assoc. reflexivity.
Qed.
Lemma map_fold_plain p kvs : forall s, NoDup (map fst s ++ map fst kvs) -> Forall (fun kv => is_storable E2 (snd kv) = false) kvs ->
  fold_left (map_put E2 p) kvs s = s ++ kvs.
Proof.
  induction kvs as [|[k v] kvs IH]; intros s Hn H; [cbn; rewrite app_nil_r; reflexivity|]. inversion H as [|? ? H1 H2]; subst. cbn [snd] in H1.
  cbn [fold_left]. unfold map_put at 2. cbn [fst snd map] in *. pose proof Hn as Hn'. apply NoDup_remove_2 in Hn'.
  rewrite assoc_del_new by (intros Hi; apply Hn'; apply in_or_app; left; exact Hi). rewrite H1, IH; [rewrite <- app_assoc; reflexivity| |assumption].
  rewrite map_app, <- app_assoc. exact Hn.
Qed.

(** *** Each kind of object *)
Lemma Clr_typed n g comps d nm e b : ser_ty E2 nm = Some d -> Clr (S n) g comps (Some d) (PDict e) b -> Clr (S n) g comps None (typed nm (PDict e)) b.
Proof.
  intros Hn H K j cx w HK Hs Hok Hh. destruct K as [|K]; [lia|]. rewrite f_de_typed with (d := d) by assumption.
  destruct (H (S K) j cx w HK Hs Hok Hh) as (o & w' & H1 & H2 & H3 & H4 & _). exists o, w'. repeat (split; [assumption|]). congruence.
Qed.
Lemma Clr_atom n g comps a : none g -> Clr (S n) g comps None (PAtom a) (false, false).
Proof.
  intros Hn K j cx w HK Hs Hok Hh. destruct K as [|K]; [lia|]. exists (OAtom a), w.
  split; [cbn [depth f_de]; unfold de_body; destruct a; reflexivity|]. split; [apply quiet_refl|]. split; [|split; [split; [reflexivity|cbn; congruence]|congruence]].
  intros K' jj cx' w2 HK' _ _ _ _. destruct K'; [lia|]. exists (OAtom a), w2. split; [reflexivity|apply cleared_none; assumption].
Qed.
Lemma Clr_list n g comps ps : Parts (fun g p => Clr n g comps None p (false, false)) g ps -> Clr (S n) g comps None (PList ps) (false, false).
Proof.
  intros Hp K j cx w HK Hs Hok Hh. destruct K as [|K]; [lia|].
  destruct (mapM_clr n comps g ps Hp K j cx w) as (os & w1 & H1 & H2 & H3 & _); [lia|assumption|assumption|assumption|].
  exists (OList os), w1. split; [cbn [depth f_de]; unfold de_body, mbind; rewrite H1; reflexivity|]. split; [assumption|]. split; [|split; [split; [reflexivity|cbn; congruence]|congruence]].
  intros K' jj cx' w2 HK' Hr Hok2 Hok3 Hh2. destruct K' as [|K']; [lia|].
  destruct (mapM_rm n j comps g os H3 K' jj cx' w2) as (os' & w3 & G1 & G2); [lia|assumption|assumption|assumption|assumption|].
  exists (OList os'), w3. split; [|assumption]. cbn [depth f_rm]. unfold rm_body. rewrite mbind_run, G1. reflexivity.
Qed.
Lemma Clr_dict n g comps ks ps : List.length ks = List.length ps -> ~ In (AStr SER_TYPE) ks -> Parts (fun g p => Clr n g comps None p (false, false)) g ps ->
  Clr (S n) g comps None (PDict (combine ks ps)) (false, false).
Proof.
  intros Hl Hk Hp K j cx w HK Hs Hok Hh. destruct K as [|K]; [lia|].
  destruct (mapM_clr n comps g ps Hp K j cx w) as (os & w1 & H1 & H2 & H3 & _ & Hlo); [lia|assumption|assumption|assumption|].
  assert (Hno : assoc_a (AStr SER_TYPE) (combine ks ps) = None).
  { destruct (assoc_a (AStr SER_TYPE) (combine ks ps)) eqn:Ea; [|reflexivity]. apply assoc_a_in in Ea. apply in_combine_l in Ea. contradiction. }
  exists (ODict (combine ks os)), w1. split.
  { cbn [depth f_de]. unfold de_body. rewrite Hno. unfold mbind at 1. unfold mbind at 1. rewrite mapM_keyed, combine_snd, combine_fst, H1 by assumption. reflexivity. }
  split; [assumption|]. split; [|split; [split; [reflexivity|cbn; congruence]|congruence]].
  intros K' jj cx' w2 HK' Hr Hok2 Hok3 Hh2. destruct K' as [|K']; [lia|].
  destruct (mapM_rm n j comps g os H3 K' jj cx' w2) as (os' & w3 & G1 & G2); [lia|assumption|assumption|assumption|assumption|].
  exists (ODict (combine ks os')), w3. split; [|assumption]. cbn [depth f_rm]. unfold rm_body.
  rewrite mbind_run, mapM_keyed, combine_snd, combine_fst, G1 by congruence. reflexivity.
Qed.
Lemma Clr_seq n g comps q ps : Parts (fun g p => Clr n g comps None p (false, false)) g ps ->
  Clr (S n) g comps (dty_of (OSeq q [] [])) (PDict (seq_dict q ps)) (is_storable E2 (OSeq q [] []), true).
Proof.
  intros Hp K j cx w HK Hs Hok Hh. destruct K as [|K]; [lia|].
  destruct (mapM_clr n comps g ps Hp K j cx w) as (os & w1 & H1 & H2 & H3 & H4 & _); [lia|assumption|assumption|assumption|].
  destruct (seq_dict_get q ps) as (D1 & D2 & D3 & D4).
  exists (OSeq q os []), w1. split.
  { cbn [dty_of]. apply f_de_some; [|discriminate]. eapply de_object_ok; [reflexivity|]. unfold de_seq. rewrite D1, D2, D3. unfold mbind. rewrite H1.
    rewrite seq_fold_plain by assumption. destruct q as [sto sub pre [[[stem nn] ss]|]]; cbn [q_runs q_sto q_sub q_pre app] in *; [|reflexivity].
    destruct D4 as (D4 & D5 & D6). rewrite D4, D5, D6, N2Z.id. reflexivity. }
  split; [assumption|]. split; [|split; [split; [reflexivity|cbn; congruence]|intros _; discriminate]].
  intros K' jj cx' w2 HK' Hr Hok2 Hok3 Hh2. destruct K' as [|K']; [lia|].
  destruct (mapM_rm n j comps g os H3 K' jj cx' w2) as (os' & w3 & G1 & G2); [lia|assumption|assumption|assumption|assumption|].
  exists (OSeq q os' []), w3. split; [|assumption]. cbn [depth f_rm]. unfold rm_body. rewrite mbind_run, G1. reflexivity.
Qed.
Lemma Clr_map n g comps p ks ps : List.length ks = List.length ps -> NoDup ks -> Parts (fun g p => Clr n g comps None p (false, false)) g ps ->
  Clr (S n) g comps (dty_of (OMap p [] [])) (PDict (map_dict p (map (fun kv => (AStr (fst kv), snd kv)) (combine ks ps)))) (is_storable E2 (OMap p [] []), true).
Proof.
  intros Hl Hk Hp K j cx w HK Hs Hok Hh. destruct K as [|K]; [lia|].
  destruct (mapM_clr n comps g ps Hp K j cx w) as (os & w1 & H1 & H2 & H3 & H4 & Hlo); [lia|assumption|assumption|assumption|].
  destruct (map_dict_get p (map (fun kv => (AStr (fst kv), snd kv)) (combine ks ps))) as (D1 & D2).
  assert (Hlk : List.length ks = List.length os) by congruence.
  exists (OMap p (combine ks os) []), w1. split.
  { cbn [dty_of]. apply f_de_some; [|discriminate]. eapply de_object_ok; [reflexivity|]. unfold de_map. rewrite D1, D2. unfold mbind at 1.
    rewrite mapM_str_keyed, combine_snd, combine_fst, H1 by assumption. rewrite map_fold_plain; [reflexivity| |].
    - cbn [map app]. rewrite combine_fst by assumption. assumption.
    - rewrite Forall_forall in *. intros [a b] Hi. apply in_combine_r in Hi. cbn. auto. }
  split; [assumption|]. split; [|split; [split; [reflexivity|cbn; congruence]|intros _; discriminate]].
  intros K' jj cx' w2 HK' Hr Hok2 Hok3 Hh2. destruct K' as [|K']; [lia|].
  destruct (mapM_rm n j comps g os H3 K' jj cx' w2) as (os' & w3 & G1 & G2); [lia|assumption|assumption|assumption|assumption|].
  exists (OMap p (combine ks os') []), w3. split; [|assumption]. cbn [depth f_rm]. unfold rm_body.
  rewrite mbind_run, mapM_keyed, combine_snd, combine_fst, G1 by assumption. reflexivity.
Qed.

(** Modelclass instances. *)
Definition toldc (n : nat) (comps : list str) (d : list (atom * pser)) (g : files) (f : mfield) : Prop :=
  (assoc_a (AStr (mf_name f)) d = None /\ none g /\ (mf_default f = None \/ mf_default f = Some (OAtom ANone))) \/
  (exists p b, assoc_a (AStr (mf_name f)) d = Some p /\ p <> PAtom ANone /\ Clr n g comps None p b /\ (fst b = false \/ mf_wrap f = None)).
Definition rmf (n j : nat) (comps : list str) (fs : list (str * obj)) (g : files) (f : mfield) : Prop :=
  exists v, assoc (mf_name f) fs = Some v /\ Rm n g j comps v.
Notation served := (filter (fun f => negb (mf_noser f))).
Lemma Rm_atom n g j comps a : none g -> Rm n g j comps (OAtom a).
Proof. intros Hn K jj cx w HK _ _ _ _. destruct K; [lia|]. exists (OAtom a), w. split; [reflexivity|apply cleared_none; assumption]. Qed.
Lemma de_fields_clr n comps d fds : NoDup (map mf_name fds) -> (forall f, In f fds -> mf_noser f = true -> assoc_a (AStr (mf_name f)) d = None) ->
  forall g, Parts (toldc n comps d) g (served fds) ->
  forall K j cx w, n <= K -> sctx j comps cx -> mnt_ok j D0 w -> has g w ->
  exists fs w', de_fields E2 (depth E2 K) (Some cx) fds d w = (Ok fs, w') /\ quiet w w' /\ Parts (rmf n j comps fs) g (served fds).
Proof.
  induction fds as [|f fds IH]; intros Hnd Hns g Hp K j cx w HK Hs Hok Hh.
  - exists [], w. split; [reflexivity|]. split; [apply quiet_refl|]. inversion Hp; subst. constructor; assumption.
  - cbn [map] in Hnd. inversion Hnd as [|? ? N1 N2]; subst. cbn [filter] in *. destruct (mf_noser f) eqn:En; cbn [negb] in *.
    + pose proof (Hns f (or_introl eq_refl) En) as Ha.
      destruct (IH N2 (fun f0 H => Hns f0 (or_intror H)) g Hp K j cx w HK Hs Hok Hh) as (fs & w1 & H1 & H2 & H3).
      eexists _, w1. split.
      { cbn [de_fields]. rewrite mbind_run. rewrite Ha. unfold ret at 1. rewrite mbind_run, H1. reflexivity. }
      split; [assumption|]. eapply Parts_impl; [|exact H3]. intros g0 f0 Hf0 (v & V1 & V2). exists v. split; [|assumption].
      cbn [assoc]. destruct (str_eq_dec (mf_name f) (mf_name f0)) as [Hx|]; [|assumption]. exfalso. apply N1. rewrite Hx. apply in_map. apply filter_In in Hf0. tauto.
    + inversion Hp as [|g1 g2 g' f' l' Hf Hl Hj]; subst.
      assert (Hv : exists v w1, (match assoc_a (AStr (mf_name f)) d with
           | Some (PAtom ANone) | None => ret (match mf_default f with Some v => v | None => OAtom ANone end)
           | Some p => f_de (depth E2 K) (Some cx) None p end) w = (Ok v, w1) /\ quiet w w1 /\ Rm n g1 j comps v /\ wrap_new E2 f v = v).
      { destruct Hf as [(Ha & Hn & Hd)|(p & b & Ha & Hpn & Hc & Hb)].
        - rewrite Ha. exists (OAtom ANone), w. split; [destruct Hd as [-> | ->]; reflexivity|]. split; [apply quiet_refl|]. split; [apply Rm_atom; assumption|].
          unfold wrap_new. destruct (mf_wrap f) as [[]|]; reflexivity.
        - rewrite Ha. destruct (Hc K j cx w HK Hs Hok (has_left _ _ _ _ Hj Hh)) as (o & w1 & H1 & H2 & H3 & [H4 _] & _).
          exists o, w1. split; [destruct p as [[]| |]; try exact H1; congruence|]. split; [assumption|]. split; [assumption|].
          unfold wrap_new. destruct (mf_wrap f) as [[]|]; [|reflexivity]. destruct Hb as [Hb|Hb]; [|discriminate]. rewrite H4, Hb. reflexivity. }
      destruct Hv as (v & w1 & V1 & V2 & V3 & V4).
      destruct (IH N2 (fun f0 H => Hns f0 (or_intror H)) g2 Hl K j cx w1 HK Hs (quiet_ok D0 Hdir _ _ _ V2 Hok) (quiet_has _ _ _ V2 (has_right _ _ _ _ Hj Hh))) as (fs & w2 & F1 & F2 & F3).
      exists ((mf_name f, v) :: fs), w2. split.
      { cbn [de_fields]. rewrite mbind_run, V1, mbind_run, F1, V4. reflexivity. }
      split; [eapply quiet_trans; eassumption|]. econstructor; [| |exact Hj].
      * exists v. split; [|assumption]. cbn [assoc]. destruct (str_eq_dec (mf_name f) (mf_name f)); congruence.
      * eapply Parts_impl; [|exact F3]. intros g0 f0 Hf0 (v0 & W1 & W2). exists v0. split; [|assumption].
        cbn [assoc]. destruct (str_eq_dec (mf_name f) (mf_name f0)) as [Hx|]; [|assumption]. exfalso. apply N1. rewrite Hx. apply in_map. apply filter_In in Hf0. tauto.
Qed.
Lemma rm_fields_ok n j comps fds : NoDup (map mf_name fds) -> forall fs g, Parts (rmf n j comps fs) g (served fds) ->
  forall K jj cx w, n < K -> rctx jj comps cx -> mnt_ok j D0 w -> mnt_ok jj D0 w -> has g w ->
  exists fs' w', rm_fields (depth E2 K) cx fds fs w = (Ok fs', w') /\ cleared g w w'.
Proof.
  induction fds as [|f fds IH]; intros Hnd fs g Hp K jj cx w HK Hs Hok Hok2 Hh.
  - exists fs, w. split; [reflexivity|]. inversion Hp; subst. apply cleared_none. assumption.
  - cbn [map] in Hnd. inversion Hnd as [|? ? N1 N2]; subst. cbn [filter] in Hp. cbn [rm_fields]. destruct (mf_noser f) eqn:En; cbn [negb] in Hp.
    + eapply IH; eassumption.
    + inversion Hp as [|g1 g2 g' f' l' Hf Hl Hj]; subst. destruct Hf as (v & V1 & V2). rewrite V1.
      destruct (V2 K jj cx w HK Hs Hok Hok2 (has_left _ _ _ _ Hj Hh)) as (v' & w1 & H1 & H2).
      assert (Hk : keeps w w1) by apply H2.
      destruct (IH N2 (assoc_set (mf_name f) v' fs) g2) with (K := K) (jj := jj) (cx := cx) (w := w1) as (fs' & w2 & G1 & G2); try assumption.
      { eapply Parts_impl; [|exact Hl]. intros g0 f0 Hf0 (v0 & W1 & W2). exists v0. split; [|assumption]. rewrite assoc_set_other; [assumption|].
        intros Hx. apply N1. rewrite Hx. apply in_map. apply filter_In in Hf0. tauto. }
      { eapply keeps_ok; eassumption. } { eapply keeps_ok; eassumption. }
      { eapply cleared_has; [apply Hj|exact H2|eapply has_right; eassumption]. }
      exists fs', w2. split; [rewrite mbind_run, H1; exact G1|]. eapply cleared_join; eassumption.
Qed.
Lemma Clr_model n g comps c fds d : k_kind (s_class E2 c) = SModel fds -> NoDup (map mf_name fds) ->
  (forall f, In f fds -> mf_noser f = true -> assoc_a (AStr (mf_name f)) d = None) -> Parts (toldc n comps d) g (served fds) ->
  Clr (S n) g comps (Some (DModel c)) (PDict d) (is_storable E2 (OModel c [] []), true).
Proof.
  intros Hk Hnd Hno Ht K j cx w HK Hs Hok Hh. destruct K as [|K]; [lia|].
  destruct (de_fields_clr n comps d fds Hnd Hno g Ht K j cx w) as (fs & w1 & F1 & F2 & F3); [lia|assumption|assumption|assumption|].
  exists (OModel c fs []), w1. split.
  { apply f_de_some; [|discriminate]. eapply de_object_ok; [reflexivity|]. unfold de_model. rewrite Hk, mbind_run, F1. reflexivity. }
  split; [assumption|]. split; [|split; [split; [reflexivity|cbn; congruence]|intros _; discriminate]].
  intros K' jj cx' w2 HK' Hr Hok2 Hok3 Hh2. destruct K' as [|K']; [lia|].
  destruct (rm_fields_ok n j comps fds Hnd fs g F3 K' jj cx' w2) as (fs' & w3 & G1 & G2); [lia|assumption|assumption|assumption|assumption|].
  exists (OModel c fs' []), w3. split; [|assumption]. cbn [depth f_rm]. unfold rm_body. rewrite mbind_run.
  assert (Hu : (if s_clean E2 then mapM (f_rm (depth E2 K') cx') [] else ret []) w2 = (Ok [], w2)) by (destruct (s_clean E2); reflexivity).
  rewrite Hu, Hk, mbind_run, G1. reflexivity.
Qed.

(** Records. *)
Definition ReadsC (n : nat) (g g1 : files) (comps deep : list str) (out : target) (ty : str) : Prop :=
  forall K j cx w, n <= K -> sctx j comps cx -> mnt_ok j D0 w -> has g w ->
  exists o w', ctx_read E2 (depth E2 K) cx out (Some ty) w = (Ok o, w') /\ quiet w w' /\ Rm n g1 j deep o /\ solid o.
Lemma Rm_leaf n g j comps c d : none g -> Rm n g j comps (OLeaf c d).
Proof. intros Hn K jj cx w HK _ _ _ _. destruct K; [lia|]. exists (OLeaf c d), w. split; [reflexivity|apply cleared_none; assumption]. Qed.
Lemma ReadsC_leaf n (g g1 : files) comps deep out cs ty c x d : D = comps_cp D0 -> places out cs -> g (D ++ comps ++ cs) x -> sto_ty E2 ty = Some (STLeaf c) ->
  (forall k, s_read E2 c k x = Ok d) -> none g1 -> ReadsC n g g1 comps deep out ty.
Proof.
  intros HD Hp Hg Hty Hr Hn K j cx w HK Hs Hok Hh.
  destruct (ctx_read_leaf E2 j D0 (depth E2 K) cx comps out cs w ty c x d Hcwd Hdir Hlim HD Hok Hs Hp (Hh _ _ Hg) Hty Hr) as (w' & H1 & H2 & H3).
  exists (OLeaf c d), w'. split; [assumption|]. split; [split; assumption|]. split; [apply Rm_leaf; assumption|exact I].
Qed.
Lemma ReadsC_obj n (g g1 : files) comps out cs ty d fr p b : D = comps_cp D0 -> places out cs -> g (D ++ comps ++ cs) (Json (to_json fr p)) ->
  json_ready p -> sto_ty E2 ty = Some (STObj d) -> (forall l c, g1 l c -> g l c) -> Clr n g1 (comps ++ removelast cs) (Some d) p b ->
  ReadsC n g g1 comps (comps ++ removelast cs) out ty.
Proof.
  intros HD Hp Hg Hj Hty Hsub Hl K j cx w HK Hs Hok Hh. pose proof (places_clean out cs Hp) as [_ Hne].
  assert (Hcs : exists l0 z, cs = l0 ++ [z]) by (destruct (exists_last Hne) as (l0 & z & Hz); eauto). destruct Hcs as (l0 & z & ->).
  pose proof (Hh _ _ Hg) as Hf.
  destruct (read_place E2 j D0 Hcwd Hdir comps cx out (l0 ++ [z]) w Hlim HD Hok Hs Hp) as (local & nt & w1 & H1 & H2 & H3 & H4 & H5).
  { rewrite removelast_last. intros q Hq. rewrite !app_assoc in Hf. eapply file_free; [exact Hf|]. rewrite <- app_assoc. exact Hq. }
  set (l := D ++ comps ++ l0 ++ [z]) in *. set (w1' := logged (EvRead l) w1).
  assert (Hq1 : quiet w w1').
  { split; [exact H4|]. intros j1 D1 HD1 Hj1. apply (ctx_prepare_ign_ok E2 j1 D1 _ _ _ _ _ Hcwd HD1 H1 Hj1). }
  destruct (Hl K j local w1') as (o & w2 & G1 & G2 & G3 & G4 & G5); [assumption|assumption|eapply quiet_ok; eassumption| |].
  { eapply quiet_has; [exact Hq1|]. intros l' c' H'. auto. }
  exists o, w2. split; [|split; [eapply quiet_trans; eassumption|split; [assumption|apply direct_solid, G5; discriminate]]].
  unfold ctx_read, attempt. rewrite mbind_run. rewrite mbind_run. rewrite H1.
  rewrite mbind_run. fold D in H5. rewrite (H5 w1 H3). fold l. unfold read_storable. rewrite Hty. rewrite mbind_run. unfold m_read at 1. rewrite op_free by assumption.
  assert (Hlk : lookup (w_fs w1) l = Some (File (Json (to_json fr p)))).
  { rewrite <- H4 in Hf. unfold file_at in Hf. destruct (lookup _ _) as [[|]|]; congruence. }
  cbn [logged w_fs]. rewrite Hlk. pose proof (through_json_ready fr p Hj) as Ht. unfold through_json in Ht. rewrite Ht. fold w1'. rewrite G1. reflexivity.
Qed.
Definition single (l : loc) (c : content) : files := fun l' c' => l' = l /\ c' = c.
(** Removing a record with content at hand or waiting. *)
Lemma Rm_rec n (g g1 : files) j comps t cs content c0 pre we re :
  D = comps_cp D0 -> places t cs -> joined (single (D ++ comps ++ cs) c0) g1 g ->
  (forall K w, n <= K -> mnt_ok j D0 w -> has g w -> exists o w', rec_load E2 (depth E2 K) content re w = (Ok (o, o, match content with OUnloaded _ _ _ _ => None | _ => re end), w') /\
     quiet w w' /\ Rm n g1 j (comps ++ removelast cs) o /\ solid o) ->
  Rm (S n) g j comps (ORec content t pre we re).
Proof.
  intros HD Hp Hj Hl K jj cx w HK [Hi [Hab Hre]] Hok Hok2 Hh. destruct K as [|K]; [lia|].
  destruct (Hl K w) as (o & w1 & H1 & H2 & H3 & H4); [lia|assumption|assumption|].
  destruct Hp as (sd & nm & Hd & Hn & Hpl & Ha & Hdd & ->). pose proof Hpl as Hp0. apply plain_clean in Hp0. destruct Hp0 as (_ & _ & _ & Hns).
  destruct t as [d0 st su]. cbn in Hd. subst d0. unfold t_name in Hn. cbn in Hn. destruct st as [sa|]; [|discriminate].
  destruct su as [sb|]; [|discriminate]. injection Hn as Hn. rewrite removelast_last in H3.
  set (sub := join2 (c_sub cx) sd). set (p := join2 sub nm).
  assert (Hsub : reaches sub (comps ++ filter named_component (components sd))) by (apply reaches_join; [split|..]; assumption).
  set (rest := comps ++ filter named_component (components sd) ++ [nm]) in *.
  assert (Hreq : requested (s_cwd E2) D0 p = D ++ rest).
  { rewrite requested_join2, location_join2_any. destruct Hsub as [S1 S2]. unfold p. rewrite isabs_join2_rel by (assumption || (apply noslash_not_isabs; assumption)).
    rewrite walk_rel by (apply noslash_not_isabs; assumption). rewrite S2, split_noslash by assumption. unfold walk. cbn [fold_left].
    rewrite walk_step_clean by (apply plain_clean; assumption). unfold rest, D. rewrite <- !app_assoc. reflexivity. }
  assert (Hrne : rest <> []) by (unfold rest; destruct comps; [destruct (filter _ _); discriminate|discriminate]).
  assert (Hf : file_at (w_fs w1) (D ++ rest) = Some c0).
  { apply (quiet_has _ _ _ H2 Hh). apply Hj. left. split; reflexivity. }
  destruct (m_remove_file jj p w1 rest c0 HD Hrne (quiet_ok D0 Hdir _ _ _ H2 Hok2) Hreq Hf) as (w2 & R1 & R2).
  pose proof (remove_keeps _ _ _ _ _ R1) as R3.
  assert (Hc1 : cleared (single (D ++ rest) c0) w w2).
  { eapply cleared_quiet; [exact H2|]. split; [|split; [|assumption]].
    - intros l c [-> ->]. rewrite R2. destruct (loc_eq_dec (D ++ rest) (D ++ rest)); congruence.
    - intros l Hx. rewrite R2. destruct (loc_eq_dec l (D ++ rest)) as [->|]; [|reflexivity]. exfalso. apply (Hx c0). split; reflexivity. }
  assert (Hk2 : keeps w w2) by apply Hc1.
  destruct (H3 K jj (ctx_join cx sub) w2) as (o' & w3 & G1 & G2).
  { lia. }
  { unfold ctx_join. destruct sub as [|x r] eqn:Es; [|split; [exact Hi|exact Hsub]]. split; [exact Hi|].
    assert (Hcs : c_sub cx = []).
    { unfold sub, join2 in Es. destruct (isabs sd) eqn:Ei; [exfalso; apply Ha; apply absolute_isabs; assumption|]. destruct (c_sub cx) as [|y r']; [reflexivity|].
      destruct (ends_sep (y :: r')); discriminate Es. }
    rewrite Hcs. exact Hsub. }
  { eapply keeps_ok; eassumption. } { eapply keeps_ok; eassumption. }
  { eapply cleared_has; [apply Hj|exact Hc1|eapply has_right; eassumption]. }
  exists (ORec o' (mkTarget (Some sd) (Some sa) (Some sb)) pre we (match content with OUnloaded _ _ _ _ => None | _ => re end)), w3. split; [|eapply cleared_join; eassumption].
  cbn [depth f_rm]. unfold rm_body, rm_rec. rewrite mbind_run, H1.
  assert (Hgo : (t' <- rec_target E2 o (mkTarget (Some sd) (Some sa) (Some sb));; a <- lift (ctx_absolute cx t');; p0 <- lift (fspath a);;
     r <- attempt (m_remove E2 (c_mnt cx) p0);; _ <- match r with Ok _ | Exn MountException => ret tt | Exn e => raise e end;;
     v' <- f_rm (depth E2 K) (ctx_join cx match t_subdir a with Some d => d | None => [] end) o;;
     ret (ORec v' t' pre we (match content with OUnloaded _ _ _ _ => None | _ => re end))) w1 =
     (Ok (ORec o' (mkTarget (Some sd) (Some sa) (Some sb)) pre we (match content with OUnloaded _ _ _ _ => None | _ => re end)), w3)).
  { rewrite mbind_run. unfold rec_target. cbn [is_complete t_subdir t_stem t_suffix]. unfold ret at 1.
    assert (Hab2 : ctx_absolute cx (mkTarget (Some sd) (Some sa) (Some sb)) = Ok (mkTarget (Some sub) (Some sa) (Some sb))) by reflexivity.
    rewrite mbind_run. unfold lift at 1. rewrite Hab2. rewrite mbind_run. unfold lift at 1.
    assert (Hfp : fspath (mkTarget (Some sub) (Some sa) (Some sb)) = Ok p) by (unfold p; rewrite <- Hn; reflexivity).
    rewrite Hfp. rewrite mbind_run. unfold attempt. rewrite Hi, R1. rewrite mbind_run. unfold ret at 1. rewrite mbind_run. cbn [t_subdir].
    rewrite G1. reflexivity. }
  destruct o; try contradiction; exact Hgo.
Qed.
Lemma Clr_rec n (g g1 : files) comps z cs c0 ty pre : D = comps_cp D0 -> places (from_path z) cs -> joined (single (D ++ comps ++ cs) c0) g1 g ->
  ReadsC n g g1 comps (comps ++ removelast cs) (from_path z) ty -> Clr (S n) g comps None (typed n_record (PDict (rec_dict z ty pre))) (false, true).
Proof.
  intros HD Hp Hj Hr K j cx w HK Hs Hok Hh. destruct K as [|K]; [lia|].
  assert (Hdir_ : exists dir, ctx_dir cx w = (Ok dir, w)).
  { destruct Hok as [(m & Hm & _) _]. destruct Hs as (Hi & _). unfold ctx_dir, m_dir_of. rewrite mbind_run, Hi, Hm. eexists. reflexivity. }
  destruct Hdir_ as [dir Hdr]. destruct pre.
  - destruct (Hr K j cx w) as (o & w1 & H1 & H2 & H3 & H4); [lia|assumption|assumption|assumption|].
    exists (ORec o (from_path z) true None None), w1. split; [|split; [assumption|split; [|split; [split; [reflexivity|cbn; congruence]|congruence]]]].
    + pose proof (de_preload_form E2 K cx w dir z (Some ty) Hdr) as Hd. unfold deserialize in Hd.
      change (preload_form z (Some ty)) with (typed n_record (PDict (rec_dict z ty true))) in Hd. rewrite Hd.
      cbn [rec_load]. rewrite mbind_run, H1. destruct o; try contradiction; reflexivity.
    + eapply Rm_rec; [eassumption|eassumption|eassumption|]. intros K' w2 HK' Hok2 Hh2. exists o, w2.
      split; [destruct o; try contradiction; reflexivity|]. split; [apply quiet_refl|]. split; assumption.
  - exists (ORec (OUnloaded (Some ty) (from_path z) dir cx) (from_path z) false None None), w. split; [|split; [apply quiet_refl|split; [|split; [split; [reflexivity|cbn; congruence]|congruence]]]].
    + pose proof (de_record_form E2 K cx w dir z (Some ty) Hdr) as Hd. unfold deserialize in Hd.
      change (record_form z (Some ty)) with (typed n_record (PDict (rec_dict z ty false))) in Hd. exact Hd.
    + eapply Rm_rec; [eassumption|eassumption|eassumption|]. intros K' w2 HK' Hok2 Hh2.
      destruct (Hr K' j cx w2) as (o & w3 & H1 & H2 & H3 & H4); [lia|assumption|assumption|assumption|].
      exists o, w3. split; [|split; [assumption|split; assumption]]. cbn [rec_load]. rewrite mbind_run, H1. destruct o; try contradiction; reflexivity.
Qed.
End Remove.

(** ** Saving *)
(** Whether an object is loaded as something that can be removed: lists and dicts of bare storables come back as mlists and mdicts. *)
Definition removes (E : senv) (o : obj) : bool :=
  match o with
  | OList l => existsb (is_storable E) l
  | ODict d => existsb (is_storable E) (map snd d)
  | _ => is_removable o
  end.
Section CSave.
Variables E E2 : senv.
Variable i : nat.
Variable D0 : str.
Hypothesis Hcwd : absolute (s_cwd E).
Hypothesis Hdir : absolute D0.
Hypothesis Hret : s_retouch E = $"auto" \/ s_retouch E = $"quit".
Hypothesis Hval : s_validate E = true.
Hypothesis Hreg : registered_classes E.
Hypothesis Huid : ordinary_uuids E.
Hypothesis Hfai : faithful_methods E.
Hypothesis Hsame : same_code E E2.
Hypothesis Hlim : s_limit E2 = None.
Let D := location (s_cwd E) D0.
Notation ok := (mnt_ok i D0).
Notation claimed := (RoundProof.claimed E i D0).
Notation grows := (RoundProof.grows E i D0).
Notation fresh := (RoundProof.fresh E i D0).
Notation C := (Clr E2 D0).

(** Exactly the newly handed out files are written. *)
Definition Wrote (w w' : world) : Prop :=
  exists evs, w_log w' = evs ++ w_log w /\ forall l, In (EvWrite l) evs <-> claimed w' l /\ ~ claimed w l.
Definition CSaved (n : nat) (comps : list str) (x : option dty) (w w' : world) (p : pser) (b : bool * bool) : Prop :=
  grows w w' /\ ok w' /\ Wrote w w' /\ C n (fresh w w') comps x p b.

Lemma csaved_weak n comps x w w' p b r : CSaved n comps x w w' p (b, r) -> CSaved n comps x w w' p (b, false).
Proof. intros (H1 & H2 & H3 & H4). repeat (split; [assumption|]). eapply Clr_weak. exact H4. Qed.
Lemma claimed_dec w l : ok w -> claimed w l \/ ~ claimed w l.
Proof.
  intros [(m & M1 & _ & [M3 _]) _].
  assert (H : (exists u r, In u (m_touched m) /\ rel_target u r /\ l = D ++ r) \/ ~ (exists u r, In u (m_touched m) /\ rel_target u r /\ l = D ++ r)).
  { induction (m_touched m) as [|v vs IH]; [right; intros (u & r & [] & _)|]. inversion M3 as [|? ? [r Hr] Hvs]; subst.
    destruct (loc_eq_dec l (D ++ r)) as [->|Hne]; [left; exists v, r; split; [left; reflexivity|auto]|].
    destruct (IH Hvs) as [(u & s & H1 & H2)|Hn]; [left; exists u, s; split; [right; assumption|assumption]|right].
    intros (u & s & [<-|H1] & H2 & H3); [apply Hne; rewrite (rel_target_unique v r s Hr H2); assumption|]. apply Hn. eauto. }
  destruct H as [(u & r & H1 & H2 & H3)|H]; [left; exists m, u, r; auto|right].
  intros (m1 & u & r & H1 & H2 & H3 & H4). rewrite M1 in H1. injection H1 as <-. apply H. eauto.
Qed.
Lemma fresh_joined a b c : grows a b -> grows b c -> ok b -> joined (fresh a b) (fresh b c) (fresh a c).
Proof.
  intros H G Hok. split.
  - intros l x. split; [|intros [Hx|Hx]; [eapply fresh_left|eapply fresh_right]; eassumption].
    intros (F1 & F2 & F3). destruct (claimed_dec b l Hok) as [Hb|Hb]; [left|right; repeat split; assumption].
    destruct (proj1 G l Hb) as [_ Hf]. repeat split; [assumption|assumption|congruence].
  - intros l x y (F1 & _) (_ & F2 & _). contradiction.
Qed.
Lemma fresh_none w : none (fresh w w). Proof. intros l c (H1 & H2 & _). contradiction. Qed.
Lemma Wrote_refl w : Wrote w w. Proof. exists []. split; [reflexivity|]. intros l. split; [intros []|tauto]. Qed.
Lemma Wrote_trans a b c : grows a b -> grows b c -> ok b -> Wrote a b -> Wrote b c -> Wrote a c.
Proof.
  intros H G Hok (e1 & E1 & W1) (e2 & E3 & W2). exists (e2 ++ e1). split; [rewrite E3, E1, app_assoc; reflexivity|]. intros l. rewrite in_app_iff, W1, W2. split.
  - intros [[X1 X2]|[X1 X2]]; (split; [|]); try assumption; [intros Hx; apply X2; apply (proj1 H l Hx)|apply (proj1 G l X1)].
  - intros [X1 X2]. destruct (claimed_dec b l Hok); [right|left]; auto.
Qed.

Lemma mapM_csaved {A B} (f : A -> M B) (ps : B -> pser) (Q : B -> Prop) n comps l :
  (forall x w y w', In x l -> ok w -> f x w = (Ok y, w') -> CSaved n comps None w w' (ps y) (false, false) /\ Q y) ->
  forall w ys w', ok w -> mapM f l w = (Ok ys, w') ->
  grows w w' /\ ok w' /\ Wrote w w' /\ Forall Q ys /\ Parts (fun g p => C n g comps None p (false, false)) (fresh w w') (map ps ys).
Proof.
  induction l as [|x l IH]; intros Hf w ys w' Hok H.
  - injection H as <- <-. split; [apply grows_refl|]. split; [assumption|]. split; [apply Wrote_refl|]. split; [constructor|]. constructor. apply fresh_none.
  - cbn [mapM] in H. apply mbind_ok in H as (y & w1 & H1 & H). apply mbind_ok in H as (ys0 & w2 & H2 & H). unfold ret in H. injection H as <- <-.
    destruct (Hf x w y w1 (or_introl eq_refl) Hok H1) as [(S1 & S2 & S3 & S4) Hq].
    destruct (IH (fun a w y w' Ha => Hf a w y w' (or_intror Ha)) w1 ys0 w2 S2 H2) as (G1 & G2 & G3 & G4 & G5).
    split; [eapply grows_trans; eassumption|]. split; [assumption|]. split; [eapply Wrote_trans; eassumption|]. split; [constructor; assumption|].
    cbn [map]. econstructor; [exact S4|exact G5|apply fresh_joined; assumption].
Qed.

Section CStep.
Variable n : nat.
Notation F := (depth E n).
Hypothesis IH : forall o co comps cx w o' p w', built E o -> recorded E o -> (co = true -> direct o) -> sctx i comps cx -> ok w ->
  f_ser F (Some cx) co o w = (Ok (o', p), w') -> CSaved n comps (if co then dty_of o else None) w w' p (is_storable E2 o, removes E o).

Lemma rec_csaved comps cx content t pre w o' q w' : built E (ORec content t pre None None) -> recorded E content -> sctx i comps cx -> ok w ->
  ser_rec E F (Some cx) content t pre None None w = (Ok (o', q), w') -> CSaved (S n) comps None w w' (typed n_record q) (false, true).
Proof.
  intros Hb Hrc Hs Hok H. inversion Hb as [| | | | | | |content0 t0 pre0 Hc Ho]; subst.
  assert (Hld : loaded content) by (intros ty tt b c ->; inversion Hc).
  apply ser_rec_loaded in H as (dir & w0 & t' & w1 & out & we' & c' & _ & -> & H1 & H2 & -> & ->); [|assumption].
  assert (Hwr : (exists c d, content = OLeaf c d) \/ (direct content /\ is_storable E content = true)).
  { pose proof H2 as H3. apply ctx_write_gen in H3 as (p & local & nt & nm & w2 & _ & _ & _ & _ & [(_ & l & w3 & _ & Hw)|(_ & _ & Hv & _)]); [|congruence].
    unfold write_storable in Hw. destruct content; try discriminate Hw; try (left; eauto; fail);
      (right; split; [discriminate|]; destruct (is_storable E _); [reflexivity|discriminate]). }
  assert (Hwu : (exists c d, content = OLeaf c d) \/ is_storable E content = true) by tauto.
  destruct (rec_target_places E content t w t' w1 Ho (built_usual E content Hc Hwu) H1) as [cs Hp].
  apply rec_target_still in H1 as (ku & -> & _). set (w1 := mkWorld (w_fs w) (w_mounts w) (w_inputs w) ku (w_log w)) in *.
  assert (Hok1 : ok w1) by exact Hok.
  destruct (ctx_write_inv E i D0 Hcwd Hdir (Hun E Hret) F cx comps t' cs content w1 out we' c' w' Hok1 Hs Hp H2)
    as (pp & u & n' & w2 & local & Hn' & Hg & Hok2 & Hpo & (z & Z1 & Z2 & Z3) & Hsl & [(-> & Hw)|(_ & _ & Hv & _)]); [|congruence].
  destruct (gave_claims E i D0 Hret pp w1 u _ _ w2 Hg Hok1) as (C1 & C2 & C3 & C4).
  assert (Hlog2 : w_log w2 = EvPrepare i pp :: w_log w).
  { destruct Hg as (m & touched & fs' & _ & _ & _ & _ & _ & -> & _). reflexivity. }
  fold D in Hw, C1, C2, C4. set (l := D ++ comps ++ removelast cs ++ [n']) in *.
  assert (Cw : forall q, claimed w1 q <-> claimed w q) by (intros q; apply claimed_mounts; reflexivity).
  assert (Hout : fspath out = Ok z) by exact Z1. rewrite Hout.
  assert (Hmain : exists ty c0 g1, sto_name E content = Some ty /\ is_storable E content = true /\ grows w w' /\ ok w' /\ Wrote w w' /\
     joined (single l c0) g1 (fresh w w') /\ ReadsC E2 D0 n (fresh w w') g1 comps (comps ++ removelast (removelast cs ++ [n'])) out ty).
  { destruct Hwr as [(c & d & ->)|[Hdc Hst]].
    - destruct (leaf_storable E Hreg c d Hc) as (ty & T1 & T2 & T3). exists ty.
      unfold write_storable in Hw. destruct (s_write E c (List.length (w_log w2)) d) as [left e] eqn:Ew.
      apply mbind_ok in Hw as (uu & w3 & Hw & He). destruct e as [e|]; [discriminate|]. unfold ret in He. injection He as <- <-.
      destruct (Hfai c _ d left Ew) as (x & -> & Hrd). pose proof (m_write_logged E _ _ _ _ _ Hw) as Hlog. apply m_write_ok in Hw as (W1 & W2 & W3).
      assert (Cl : forall q, claimed w3 q <-> claimed w q \/ q = l).
      { intros q. rewrite (claimed_mounts E i D0 w2 w3 q W1), C1, Cw. reflexivity. }
      assert (Hnew : ~ claimed w l) by (intros Hx; apply C2, Cw; assumption).
      assert (Hat : file_at (w_fs w3) l = Some x) by (rewrite W2; destruct (loc_eq_dec l l); congruence).
      exists x, (fun _ _ => False). split; [assumption|]. split; [assumption|].
      split; [|split; [|split; [|split]]].
      + split.
        * intros q Hq. split; [apply Cl; auto|]. rewrite W2. destruct (loc_eq_dec q l) as [->|]; [contradiction|]. apply C3.
        * exists [EvWrite l; EvPrepare i pp]. split; [rewrite Hlog, Hlog2; reflexivity|]. intros q Hq. apply Cl in Hq as [Hq| ->]; [auto|right; left; reflexivity].
      + destruct Hok2 as [Ha Hb2]. split; [|auto]. rewrite W1. exact Ha.
      + exists [EvWrite l; EvPrepare i pp]. split; [rewrite Hlog, Hlog2; reflexivity|]. intros q. rewrite Cl. cbn [In]. split.
        * intros [Hx|[Hx|[]]]; [injection Hx as <-|discriminate]. auto.
        * intros [[Hx| ->] Hy]; [contradiction|auto].
      + split; [|intros q y y' _ []]. intros q y. split.
        * intros (F1 & F2 & F3). apply Cl in F1 as [F1| ->]; [contradiction|]. left. split; congruence.
        * intros [[-> ->]|[]]. repeat split; [apply Cl; auto|assumption|assumption].
      + eapply (ReadsC_leaf E2 D0 (Hcwd2 E E2 Hcwd Hsame) Hdir Hlim n _ _ comps _ out (removelast cs ++ [n']) ty c x d).
        * rewrite (HD2 E E2 D0 Hsame). exact C4.
        * assumption.
        * rewrite (HD2 E E2 D0 Hsame). repeat split; [apply Cl; auto|assumption|assumption].
        * rewrite (sto_ty_same E E2 Hsame). assumption.
        * intros k. pose proof Hsame as (_ & _ & _ & -> & _). apply Hrd.
        * intros q y [].
    - destruct (container_storable E Hreg content Hc Hdc Hst) as (ty & dt & T1 & T2 & T3).
      rewrite write_container in Hw by assumption. apply mbind_ok in Hw as (u1 & w3 & Hw1 & Hw). apply mbind_ok in Hw as ([o1 p1] & w4 & Hw2 & Hw).
      apply mbind_ok in Hw as (u2 & w5 & Hw3 & Hw). unfold ret in Hw. injection Hw as <- <-.
      pose proof (m_write_logged E _ _ _ _ _ Hw1) as Hlog3. pose proof (m_write_logged E _ _ _ _ _ Hw3) as Hlog5.
      apply m_write_ok in Hw1 as (W1 & W2 & W3). apply m_write_ok in Hw3 as (X1 & X2 & X3). cbn [snd] in X2.
      assert (Hok3 : ok w3). { destruct Hok2 as [Ha Hb2]. split; [|auto]. rewrite W1. exact Ha. }
      destruct (ser_saved E E2 i D0 Hcwd Hdir Hret Hval Hreg Huid Hfai Hsame Hlim n content true _ local w3 _ _ w4 Hc (fun _ => Hdc) Hsl Hok3 Hw2) as (_ & _ & R3 & _).
      destruct (IH content true _ local w3 _ _ w4 Hc Hrc (fun _ => Hdc) Hsl Hok3 Hw2) as ([S1 Sf] & S2 & (evs & S3 & S4) & S6).
      cbn iota in S6. rewrite T3 in S6.
      assert (Cl : forall q, claimed w3 q <-> claimed w q \/ q = l).
      { intros q. rewrite (claimed_mounts E i D0 w2 w3 q W1), C1, Cw. reflexivity. }
      assert (Cl5 : forall q, claimed w5 q <-> claimed w4 q) by (intros q; apply claimed_mounts; exact X1).
      assert (Hnew : ~ claimed w l) by (intros Hx; apply C2, Cw; assumption).
      set (c0 := Json (to_json (s_float E) p1)) in *.
      assert (Hat : file_at (w_fs w5) l = Some c0) by (rewrite X2; destruct (loc_eq_dec l l); congruence).
      assert (H4l : claimed w4 l) by (apply S1, Cl; auto).
      assert (Hsub : forall q y, fresh w3 w4 q y -> fresh w w5 q y).
      { intros q y (B1 & B2 & B3). assert (Hne : q <> l) by (intros ->; apply B2, Cl; auto). repeat split.
        - apply Cl5. assumption.
        - intros Hx. apply B2, Cl. auto.
        - rewrite X2. destruct (loc_eq_dec q l); [contradiction|assumption]. }
      exists ty, c0, (fresh w3 w4). split; [assumption|]. split; [assumption|].
      split; [|split; [|split; [|split]]].
      + split.
        * intros q Hq. assert (Hne : q <> l) by (intros ->; contradiction). destruct (S1 q) as [A1 A2]; [apply Cl; auto|]. split; [apply Cl5; assumption|].
          rewrite X2. destruct (loc_eq_dec q l) as [|]; [contradiction|]. rewrite A2, W2. destruct (loc_eq_dec q l) as [|]; [contradiction|]. apply C3.
        * destruct Sf as (ev & L1 & L2). exists (EvWrite l :: ev ++ [EvWrite l; EvPrepare i pp]). split; [rewrite Hlog5, L1, Hlog3, Hlog2; cbn [app]; rewrite <- app_assoc; reflexivity|].
          intros q Hq. apply Cl5 in Hq. destruct (L2 q Hq) as [Hq'|Hq']; [apply Cl in Hq' as [Hq'| ->]; [auto|right; left; reflexivity]|].
          right. right. apply in_or_app. auto.
      + destruct S2 as [Ha Hb2]. split; [|auto]. rewrite X1. exact Ha.
      + exists (EvWrite l :: evs ++ [EvWrite l; EvPrepare i pp]). split.
        { rewrite Hlog5, S3, Hlog3, Hlog2. cbn [app]. rewrite <- app_assoc. reflexivity. }
        intros q. rewrite Cl5. cbn [In]. rewrite in_app_iff, S4. cbn [In]. split.
        * intros [Hx|[[Hx Hy]|[Hx|[Hx|[]]]]]; [injection Hx as <-; auto| |injection Hx as <-; auto|discriminate].
          split; [assumption|]. intros Hz. apply Hy, Cl. auto.
        * intros [Hx Hy]. destruct (loc_eq_dec q l) as [->|Hne]; [auto|]. right. left. split; [assumption|]. intros Hz. apply Cl in Hz as [Hz|Hz]; contradiction.
      + split.
        * intros q y. split; [|intros [[-> ->]|Hx]; [repeat split; [apply Cl5; assumption|assumption|assumption]|apply Hsub; assumption]].
          intros (F1 & F2 & F3). destruct (loc_eq_dec q l) as [->|Hne]; [left; split; congruence|]. right. repeat split.
          -- apply Cl5. assumption.
          -- intros Hz. apply Cl in Hz as [Hz|Hz]; contradiction.
          -- rewrite X2 in F3. destruct (loc_eq_dec q l); [contradiction|assumption].
        * intros q y y' [-> _] (_ & B2 & _). apply B2, Cl. auto.
      + eapply (ReadsC_obj E2 D0 (Hcwd2 E E2 Hcwd Hsame) Hdir Hlim n _ _ comps out (removelast cs ++ [n']) ty dt (s_float E) p1).
        * rewrite (HD2 E E2 D0 Hsame). exact C4.
        * assumption.
        * rewrite (HD2 E E2 D0 Hsame). repeat split; [apply Cl5; assumption|assumption|assumption].
        * assumption.
        * rewrite (sto_ty_same E E2 Hsame). assumption.
        * assumption.
        * rewrite removelast_last. exact S6. }
  destruct Hmain as (ty & c0 & g1 & T1 & T2 & T3 & T4 & T5 & T6 & T7).
  assert (Hty : rec_sto_type E content = Some ty) by (destruct content; try discriminate T2; exact T1).
  assert (Hq : [(key "target", PAtom (AStr z)); (key "sto_type", opt_str (rec_sto_type E content))] ++ (if pre then [(key "preload", PAtom (ABool true))] else []) ++
              match exc_entry "write" None ++ exc_entry "read" None with [] => [] | l => [(key "exceptions", PDict l)] end = rec_dict z ty pre).
  { rewrite Hty. unfold rec_dict. cbn [exc_entry app opt_str]. rewrite app_nil_r. reflexivity. }
  rewrite Hq. split; [assumption|]. split; [assumption|]. split; [assumption|]. subst out.
  eapply (Clr_rec E2 D0 (Hcwd2 E E2 Hcwd Hsame) Hdir Hlim n _ g1 comps z (removelast cs ++ [n']) c0); [rewrite (HD2 E E2 D0 Hsame); exact C4|assumption| |exact T7].
  rewrite (HD2 E E2 D0 Hsame). exact T6.
Qed.
Lemma not_storable2 o : is_storable E o = false -> is_storable E2 o = false.
Proof. intros H. rewrite (is_storable_same E E2 Hsame). exact H. Qed.
Lemma item_csaved comps cx o w y w' : built E o -> recorded E o -> is_storable E o = false -> sctx i comps cx -> ok w -> ser_item E F (Some cx) o w = (Ok y, w') ->
  CSaved n comps None w w' (item_ps y) (false, false) /\ snd y <> None.
Proof.
  intros Hb Hrc Hst Hs Hok H.
  assert (H' : (x <- f_ser F (Some cx) false o;; ret (fst x, Some (snd x))) w = (Ok y, w')).
  { unfold ser_item in H. destruct o; try exact H. inversion Hb; subst. cbn [rec_exists] in H. rewrite orb_true_r in H. exact H. }
  apply mbind_ok in H' as ([o1 p1] & w1 & H1 & H2). unfold ret in H2. injection H2 as <- <-. cbn [snd fst]. split; [|discriminate].
  apply (csaved_weak n comps None _ _ _ false (removes E o)). pose proof (not_storable2 o Hst) as Hst2. rewrite <- Hst2 at 1. apply (IH o false comps cx w o1 p1 w1 Hb Hrc); [discriminate|assumption|assumption|exact H1].
Qed.
Lemma seq_csaved comps cx q s w o' p w' : built E (OSeq q s []) -> recorded E (OSeq q s []) -> sctx i comps cx -> ok w ->
  ser_seq E F (Some cx) q s [] w = (Ok (o', p), w') -> CSaved (S n) comps (dty_of (OSeq q s [])) w w' p (is_storable E2 (OSeq q s []), true) /\ exists e, p = PDict e.
Proof.
  intros Hb Hrc Hs Hok H. inversion Hb as [| | | | |q0 s0 Hi| |]; subst. inversion Hrc as [| | | | |q0 s0 u0 Hri| |]; subst. unfold ser_seq in H.
  apply mbind_ok in H as (r1 & w1 & H1 & H). rewrite rm_none in H1. injection H1 as _ <-.
  apply mbind_ok in H as (ys & w2 & H2 & H).
  destruct (mapM_csaved (ser_item E F (Some cx)) item_ps (fun y => snd y <> None) n comps s) with (w := w) (ys := ys) (w' := w2)
    as (G1 & G2 & G3 & G4 & G5); [|assumption|assumption|].
  { intros x w0 y w1 Hx Hok0 Hy. destruct (Hri x Hx). eapply (item_csaved comps cx x w0 y w1 (Hi x Hx)); eassumption. }
  destruct (kept_items ys G4) as [K1 K2]. rewrite K1, K2 in H.
  apply mbind_ok in H as (r2 & w3 & H3 & H). rewrite rm_none in H3. injection H3 as _ <-. unfold ret in H. injection H as _ <- <-.
  split; [|eexists; reflexivity].
  change (CSaved (S n) comps (dty_of (OSeq q [] [])) w w2 (PDict (seq_dict q (map item_ps ys))) (is_storable E2 (OSeq q [] []), true)).
  split; [assumption|]. split; [assumption|]. split; [assumption|]. apply Clr_seq; assumption.
Qed.
Lemma keyed_forms ks ys : Forall (fun y : obj * option pser => snd y <> None) ys -> List.length ks = List.length ys ->
  flat_map (fun kx : str * (obj * option pser) => match snd (snd kx) with Some s => [(AStr (fst kx), s)] | None => [] end) (combine ks ys)
     = map (fun kv => (AStr (fst kv), snd kv)) (combine ks (map item_ps ys)).
Proof.
  intros G4. revert ks. induction G4 as [|[o [p|]] ys Hy G4 IHy]; intros [|k ks] Hlen; try reflexivity; try discriminate.
  - cbn. f_equal. apply IHy. cbn in Hlen. congruence.
  - exfalso. apply Hy. reflexivity.
Qed.
Lemma map_csaved comps cx q s w o' p w' : built E (OMap q s []) -> recorded E (OMap q s []) -> sctx i comps cx -> ok w ->
  ser_map E F (Some cx) q s [] w = (Ok (o', p), w') -> CSaved (S n) comps (dty_of (OMap q s [])) w w' p (is_storable E2 (OMap q s []), true) /\ exists e, p = PDict e.
Proof.
  intros Hb Hrc Hs Hok H. inversion Hb as [| | | | | |q0 s0 Hi Hnd|]; subst. inversion Hrc as [| | | | | |q0 s0 u0 Hri|]; subst. unfold ser_map in H.
  apply mbind_ok in H as (r1 & w1 & H1 & H). rewrite rm_none' in H1. injection H1 as _ <-.
  apply mbind_ok in H as (xs & w2 & H2 & H). apply mapM_keyed_ok in H2 as (ys & H2 & -> & Hlen).
  destruct (mapM_csaved (ser_item E F (Some cx)) item_ps (fun y => snd y <> None) n comps (map snd s)) with (w := w) (ys := ys) (w' := w2)
    as (G1 & G2 & G3 & G4 & G5); [|assumption|assumption|].
  { intros x w0 y w1 Hx Hok0 Hy. apply in_map_iff in Hx as ([k v] & <- & Hx). destruct (Hri k v Hx). eapply (item_csaved comps cx v w0 y w1 (Hi k v Hx)); eassumption. }
  destruct (kept_items ys G4) as [K1 K2]. rewrite combine_snd, K1 in H by assumption.
  apply mbind_ok in H as (r2 & w3 & H3 & H). rewrite rm_none in H3. injection H3 as _ <-. unfold ret in H. injection H as _ <- <-.
  split; [|eexists; reflexivity]. rewrite keyed_forms by assumption.
  change (CSaved (S n) comps (dty_of (OMap q [] [])) w w2 (PDict (map_dict q (map (fun kv => (AStr (fst kv), snd kv)) (combine (map fst s) (map item_ps ys))))) (is_storable E2 (OMap q [] []), true)).
  assert (Hl2 : List.length (map fst s) = List.length (map item_ps ys)) by (rewrite (map_length item_ps); assumption).
  split; [assumption|]. split; [assumption|]. split; [assumption|]. apply Clr_map; assumption.
Qed.
Lemma plain_csaved comps cx o w y w' : built E o -> recorded E o -> sctx i comps cx -> ok w -> ser_plain_item E F (Some cx) o w = (Ok y, w') ->
  CSaved n comps None w w' (snd y) (false, false).
Proof.
  intros Hb Hrc Hs Hok H. unfold ser_plain_item in H. destruct (is_storable E o) eqn:Est.
  - apply mbind_ok in H as ([o1 p1] & w1 & H1 & H2). unfold ret in H2. injection H2 as <- <-. cbn [snd].
    assert (Hbr : built E (fresh_record o)) by (constructor; [assumption|apply auto_ordinary; assumption]).
    apply (csaved_weak n comps None w w1 p1 false true), (IH (fresh_record o) false comps cx w o1 p1 w1 Hbr); [constructor; assumption|discriminate|assumption|assumption|exact H1].
  - destruct y as [o1 p1]. apply (csaved_weak n comps None _ _ _ false (removes E o)). pose proof (not_storable2 o Est) as Hst2. rewrite <- Hst2 at 1. apply (IH o false comps cx w o1 p1 w' Hb Hrc); [discriminate|assumption|assumption|exact H].
Qed.
Lemma list_csaved comps cx l w o' p w' : built E (OList l) -> recorded E (OList l) -> sctx i comps cx -> ok w ->
  ser_list E F (Some cx) l w = (Ok (o', p), w') -> CSaved (S n) comps None w w' p (false, existsb (is_storable E) l).
Proof.
  intros Hb Hrc Hs Hok H. inversion Hb as [|l0 Hi| | | | | |]; subst. inversion Hrc as [|l0 Hri| | | | | |]; subst.
  unfold ser_list in H. apply mbind_ok in H as (ys & w1 & H1 & H).
  destruct (mapM_csaved (ser_plain_item E F (Some cx)) snd (fun _ => True) n comps l) with (w := w) (ys := ys) (w' := w1)
    as (G1 & G2 & G3 & _ & G5); [intros x w0 y w2 Hx Hok0 Hy; split; [eapply (plain_csaved comps cx x w0 y w2 (Hi x Hx) (Hri x Hx)); assumption|exact I]|assumption|assumption|].
  cbn zeta in H. unfold ret in H. injection H as _ <- <-.
  split; [assumption|]. split; [assumption|]. split; [assumption|]. destruct (existsb (is_storable E) l).
  - apply (Clr_typed E2 D0 n _ comps (DSeq false false)); [reflexivity|].
    apply (Clr_seq E2 D0 Hdir n _ comps (mkSeq false [] false None) (map snd ys)). assumption.
  - apply Clr_list; assumption.
Qed.
Lemma dict_csaved comps cx d w o' p w' : built E (ODict d) -> recorded E (ODict d) -> sctx i comps cx -> ok w ->
  ser_dict E F (Some cx) d w = (Ok (o', p), w') -> CSaved (S n) comps None w w' p (false, existsb (is_storable E) (map snd d)).
Proof.
  intros Hb Hrc Hs Hok H. inversion Hb as [| |d0 Hi Hnd| | | | |]; subst. inversion Hrc as [| |d0 Hri| | | | |]; subst.
  unfold ser_dict in H. apply mbind_ok in H as (xs & w1 & H1 & H). apply mapM_keyed_ok in H1 as (ys & H1 & -> & Hlen).
  destruct (mapM_csaved (ser_plain_item E F (Some cx)) snd (fun _ => True) n comps (map snd d)) with (w := w) (ys := ys) (w' := w1)
    as (G1 & G2 & G3 & _ & G5); [|assumption|assumption|].
  { intros x w0 y w2 Hx Hok0 Hy. apply in_map_iff in Hx as ([k v] & <- & Hx). split; [|exact I]. destruct (Hi k v Hx) as [_ Hiv]. eapply (plain_csaved comps cx v w0 y w2 Hiv (Hri k v Hx)); assumption. }
  cbn zeta in H. unfold ret in H. injection H as _ <- <-.
  assert (Hmap : map (fun kx : atom * (obj * pser) => (fst kx, snd (snd kx))) (combine (map fst d) ys) = combine (map fst d) (map snd ys)).
  { clear - Hlen. revert ys Hlen. induction (map fst d) as [|k ks IHk]; intros [|y ys] Hlen; try reflexivity. cbn. f_equal. apply IHk. cbn in Hlen. congruence. }
  rewrite Hmap.
  assert (Hks : exists ks, map fst d = map AStr ks /\ NoDup ks /\ ~ In SER_TYPE ks).
  { clear - Hi Hnd. induction d as [|[k v] d IHd]; [exists []; split; [reflexivity|split; [constructor|intros []]]|].
    cbn [map fst] in *. inversion Hnd as [|? ? N1 N2]; subst.
    destruct IHd as (ks & K1 & K2 & K3); [intros k' x' Hx'; apply Hi; right; assumption|assumption|].
    destruct (Hi k v (or_introl eq_refl)) as [(s & -> & Hs) _]. exists (s :: ks). cbn [map]. split; [congruence|].
    split; [|intros [Hx|Hx]; [congruence|auto]]. constructor; [|assumption]. intros Hx. apply N1. rewrite K1. apply in_map. assumption. }
  destruct Hks as (ks & K1 & K2 & K3).
  assert (Hl2 : List.length (map fst d) = List.length (map snd ys)) by (rewrite (map_length snd ys); assumption).
  assert (Hl3 : List.length ks = List.length (map snd ys)) by (rewrite K1, map_length in Hl2; assumption).
  assert (Hcomb : forall A (l : list A), combine (map AStr ks) l = map (fun kv => (AStr (fst kv), snd kv)) (combine ks l)).
  { clear. induction ks as [|k ks IHk]; intros A [|x l]; try reflexivity. cbn. f_equal. apply IHk. }
  split; [assumption|]. split; [assumption|]. split; [assumption|]. rewrite K1 in *. destruct (existsb (is_storable E) (map snd d)).
  - rewrite Hcomb. apply (Clr_typed E2 D0 n _ comps (DMap false)); [reflexivity|].
    apply (Clr_map E2 D0 Hdir n _ comps (mkMap false [] false false false) ks (map snd ys) Hl3 K2 G5).
  - apply Clr_dict; [assumption|assumption| |assumption].
    intros Hx. apply in_map_iff in Hx as (s & Hx & Hy). injection Hx as ->. contradiction.
Qed.
Lemma toldc_other g comps k p d f : AStr (mf_name f) <> k -> toldc E2 D0 n comps d g f -> toldc E2 D0 n comps ((k, p) :: d) g f.
Proof.
  intros Hk Ht. assert (He : assoc_a (AStr (mf_name f)) ((k, p) :: d) = assoc_a (AStr (mf_name f)) d).
  { cbn. destruct (atom_eq_dec k (AStr (mf_name f))); [congruence|reflexivity]. }
  unfold toldc. rewrite He. exact Ht.
Qed.
Notation served := (filter (fun f => negb (mf_noser f))).
Lemma fields_csaved comps cx fds : sctx i comps cx -> NoDup (map mf_name fds) -> forall fs w fs' d w',
  (forall f v, In f fds -> mf_noser f = false -> assoc (mf_name f) fs = Some v ->
     built E v /\ (v = OAtom ANone -> mf_default f = None \/ mf_default f = Some (OAtom ANone))) ->
  (forall f v, In f fds -> mf_noser f = false -> assoc (mf_name f) fs = Some v -> recorded E v /\ (mf_wrap f <> None -> is_storable E v = false)) ->
  ok w -> ser_fields_m F (Some cx) fds fs w = (Ok (fs', d), w') ->
  grows w w' /\ ok w' /\ Wrote w w' /\
  (forall k p, In (k, p) d -> exists f, In f fds /\ mf_noser f = false /\ k = AStr (mf_name f)) /\
  Parts (toldc E2 D0 n comps d) (fresh w w') (served fds).
Proof.
  intros Hs. induction fds as [|f fds IHf]; intros Hnd fs w fs' d w' Hb Hrc Hok H.
  - injection H as _ <- <-. split; [apply grows_refl|]. split; [assumption|]. split; [apply Wrote_refl|]. split; [intros k p []|]. constructor. apply fresh_none.
  - cbn [map] in Hnd. inversion Hnd as [|? ? N1 N2]; subst. cbn [ser_fields_m] in H. cbn [filter]. destruct (mf_noser f) eqn:En; cbn [negb].
    + destruct (IHf N2 fs w fs' d w') as (G1 & G2 & G3 & G4 & G5); [intros f0 v Hf0; apply Hb; right; assumption|intros f0 v Hf0; apply Hrc; right; assumption|assumption|assumption|].
      repeat (split; [assumption|]). split; [|assumption]. intros k p Hp. destruct (G4 k p Hp) as (f0 & X1 & X2 & X3). exists f0. split; [right; assumption|auto].
    + destruct (assoc (mf_name f) fs) as [v|] eqn:Ea; [|discriminate].
      destruct (Hb f v (or_introl eq_refl) En Ea) as [Hv Hdef]. destruct (Hrc f v (or_introl eq_refl) En Ea) as [Hrv Hwr].
      assert (Hcase : v = OAtom ANone \/ (v <> OAtom ANone /\
         (x <- f_ser F (Some cx) false v;; y <- ser_fields_m F (Some cx) fds (assoc_set (mf_name f) (fst x) fs);; ret (fst y, (AStr (mf_name f), snd x) :: snd y)) w = (Ok (fs', d), w'))).
      { destruct v as [[| | | |]|l|dd|c x|c x u|q x u|q x u|? ? ? ? ?|? ? ? ?|?|?]; try (right; split; [discriminate|exact H]). left. reflexivity. }
      destruct Hcase as [-> | [Hnn H']].
      * destruct (IHf N2 fs w fs' d w') as (G1 & G2 & G3 & G4 & G5); [intros f0 v Hf0; apply Hb; right; assumption|intros f0 v Hf0; apply Hrc; right; assumption|assumption|assumption|].
        repeat (split; [assumption|]). split; [intros k p Hp; destruct (G4 k p Hp) as (f0 & X1 & X2 & X3); exists f0; split; [right; assumption|auto]|].
        eapply (parts_cons _ (fun _ _ => False) (fresh w w')); [|exact G5|].
        -- left. split; [|split; [intros l c []|auto]].
           apply RoundProof.assoc_a_none. intros p Hp. destruct (G4 _ p Hp) as (f0 & X1 & _ & X3). injection X3 as X3. apply N1. rewrite X3. apply in_map. assumption.
        -- split; [intros l c; tauto|intros l c c' []].
      * apply mbind_ok in H' as ([o1 p1] & w1 & H1 & H'). apply mbind_ok in H' as ([fs1 d1] & w2 & H2 & H'). unfold ret in H'. cbn [fst snd] in *. injection H' as <- <- <-.
        destruct (ser_saved E E2 i D0 Hcwd Hdir Hret Hval Hreg Huid Hfai Hsame Hlim n v false comps cx w o1 p1 w1 Hv) as (_ & _ & _ & R4 & _); [discriminate|assumption|assumption|exact H1|].
        destruct (IH v false comps cx w o1 p1 w1 Hv Hrv) as (S1 & S2 & S3 & S4); [discriminate|assumption|assumption|exact H1|].
        assert (Hoth : forall f0, In f0 fds -> assoc (mf_name f0) (assoc_set (mf_name f) o1 fs) = assoc (mf_name f0) fs).
        { intros f0 Hf0. apply assoc_set_other. intros Hx. apply N1. rewrite Hx. apply in_map. assumption. }
        destruct (IHf N2 (assoc_set (mf_name f) o1 fs) w1 fs1 d1 w2) as (G1 & G2 & G3 & G4 & G5).
        { intros f0 v0 Hf0 Hno Hx. rewrite Hoth in Hx by assumption. apply Hb; [right; assumption|assumption|assumption]. }
        { intros f0 v0 Hf0 Hno Hx. rewrite Hoth in Hx by assumption. apply Hrc; [right; assumption|assumption|assumption]. }
        { assumption. } { assumption. }
        split; [eapply grows_trans; eassumption|]. split; [assumption|]. split; [eapply Wrote_trans; eassumption|]. split.
        { intros k p [Hp|Hp].
          - injection Hp as <- <-. exists f. split; [left; reflexivity|auto].
          - destruct (G4 k p Hp) as (f0 & X1 & X2 & X3). exists f0. split; [right; assumption|auto]. }
        econstructor; [| |apply (fresh_joined w w1 w2); assumption].
        -- right. exists p1, (is_storable E2 v, removes E v). split; [cbn; destruct (atom_eq_dec (AStr (mf_name f)) (AStr (mf_name f))); congruence|]. split; [apply R4; assumption|].
           split; [exact S4|]. destruct (mf_wrap f) as [x|]; [left; apply not_storable2; apply Hwr; discriminate|right; reflexivity].
        -- eapply Parts_impl; [|exact G5]. intros g f0 Hf0 Ht0. apply filter_In in Hf0 as [Hf0 _].
           apply toldc_other; [intros Hx; injection Hx as Hx; apply N1; rewrite <- Hx; apply in_map; assumption|exact Ht0].
Qed.
Lemma model_csaved comps cx c fds fs w o' p w' : k_kind (s_class E c) = SModel fds -> built E (OModel c fs []) -> recorded E (OModel c fs []) -> sctx i comps cx -> ok w ->
  ser_model E F (Some cx) c fds fs [] w = (Ok (o', p), w') -> CSaved (S n) comps (Some (DModel c)) w w' p (is_storable E2 (OModel c fs []), true) /\ exists e, p = PDict e.
Proof.
  intros Hk Hb Hrc Hs Hok H. inversion Hb as [| | | |c0 fs0 fds0 Hk' Hnd Hf| | |]; subst. rewrite Hk in Hk'. injection Hk' as <-.
  inversion Hrc as [| | | |c0 fs0 u0 fds0 Hk' Hrf| | |]; subst. rewrite Hk in Hk'. injection Hk' as <-.
  unfold ser_model in H. apply mbind_ok in H as (u & w1 & H1 & H). rewrite rm_none in H1. injection H1 as _ <-.
  apply mbind_ok in H as ([fs' d] & w2 & H2 & H). unfold ret in H. cbn [fst snd] in H. injection H as _ <- <-.
  destruct (fields_csaved comps cx fds Hs Hnd fs w fs' d w2 Hf Hrf Hok H2) as (G1 & G2 & G3 & G4 & G5).
  split; [|eexists; reflexivity]. split; [assumption|]. split; [assumption|]. split; [assumption|].
  change (is_storable E2 (OModel c fs [])) with (is_storable E2 (OModel c [] [])).
  apply (Clr_model E2 D0 Hdir n _ comps c fds d).
  - pose proof Hsame as (-> & _). assumption.
  - assumption.
  - intros f Hf0 Hno. apply RoundProof.assoc_a_none. intros p Hp. destruct (G4 _ p Hp) as (f0 & X1 & X2 & X3). injection X3 as X3.
    assert (f = f0). { clear - Hnd Hf0 X1 X3. induction fds as [|g r IHr]; [contradiction|]. cbn in Hnd. inversion Hnd as [|? ? N1 N2]; subst.
      destruct Hf0 as [<-|Hf0], X1 as [<-|X1]; auto; exfalso; apply N1; [rewrite X3|rewrite <- X3]; apply in_map; assumption. }
    congruence.
  - assumption.
Qed.
Lemma step_csaved o co comps cx w o' p w' : built E o -> recorded E o -> (co = true -> direct o) -> sctx i comps cx -> ok w ->
  ser_body E F (Some cx) co o w = (Ok (o', p), w') -> CSaved (S n) comps (if co then dty_of o else None) w w' p (is_storable E2 o, removes E o).
Proof.
  intros Hb Hrc Hd Hs Hok H.
  assert (Hfin : forall nm q d, ser_ty E2 nm = Some d -> dty_of o = Some d -> (exists e, q = PDict e) -> CSaved (S n) comps (Some d) w w' q (is_storable E2 o, removes E o) ->
    CSaved (S n) comps (if co then dty_of o else None) w w' (emit co (nm, q)) (is_storable E2 o, removes E o)).
  { intros nm q d Hty Hdt [e ->] HS. destruct co; [rewrite Hdt; exact HS|]. destruct HS as (S1 & S2 & S3 & S4).
    cbn [emit fst snd]. repeat (split; [assumption|]). eapply Clr_typed; eassumption. }
  inversion Hb as [a|l Hi|d Hi Hn|c d j ext ty Hk Ht|c fs fds Hk Hn Hf|q s Hi|q s Hi Hn|content t pre Hc Ho]; subst o.
  - cbn in H. injection H as <- <- <-. destruct co; [exfalso; apply Hd; reflexivity|]. split; [apply grows_refl|]. split; [assumption|]. split; [apply Wrote_refl|].
    apply Clr_atom. apply fresh_none.
  - destruct co; [exfalso; apply Hd; reflexivity|]. cbn [ser_body] in H. eapply list_csaved; eassumption.
  - destruct co; [exfalso; apply Hd; reflexivity|]. cbn [ser_body] in H. eapply dict_csaved; eassumption.
  - exfalso. cbn [ser_body ser_method] in H. apply mbind_ok in H as (u & w1 & H1 & _). apply invalid_ok in H1 as [_ Hv]. congruence.
  - destruct (k_ser (s_class E c)) as [nm|] eqn:En.
    2:{ exfalso. cbn [ser_body ser_method] in H. rewrite En in H. apply mbind_ok in H as (u & w1 & H1 & _). apply invalid_ok in H1 as [_ Hv]. congruence. }
    pose proof Hreg as [Hr _]. specialize (Hr c fds nm Hk En).
    assert (Hm : ser_method E F (Some cx) (OModel c fs []) = Some (nm, ser_model E F (Some cx) c fds fs [])) by (cbn [ser_method]; rewrite En, Hr, Hk; reflexivity).
    assert (Hq : exists q, ser_model E F (Some cx) c fds fs [] w = (Ok (o', q), w') /\ p = emit co (nm, q)).
    { eapply (run_method E Hval n); [| | |exact Hm|exact H]; discriminate. }
    clear H. destruct Hq as (q & H & ->).
    destruct (model_csaved comps cx c fds fs w o' q w' Hk Hb Hrc Hs Hok H) as [HS He].
    apply (Hfin nm q (DModel c)); [rewrite (ser_ty_same E E2 Hsame); assumption|reflexivity|assumption|assumption].
  - eapply (run_method E Hval n) in H as (p1 & H & ->); [|discriminate|discriminate|discriminate|cbn [ser_method]; reflexivity].
    destruct (seq_csaved comps cx q s w o' p1 w' Hb Hrc Hs Hok H) as [HS He]. cbn [dty_of] in HS.
    eapply Hfin; [|reflexivity|assumption|exact HS]. destruct (q_runs q) as [[[]]|], (q_sto q); reflexivity.
  - eapply (run_method E Hval n) in H as (p1 & H & ->); [|discriminate|discriminate|discriminate|cbn [ser_method]; reflexivity].
    destruct (map_csaved comps cx q s w o' p1 w' Hb Hrc Hs Hok H) as [HS He]. cbn [dty_of] in HS.
    eapply Hfin; [|reflexivity|assumption|exact HS]. destruct (p_sto q); reflexivity.
  - destruct co; [exfalso; apply Hd; reflexivity|].
    eapply (run_method E Hval n) in H as (p1 & H & ->); [|discriminate|discriminate|discriminate|cbn [ser_method]; reflexivity].
    inversion Hrc; subst. eapply rec_csaved; eassumption.
Qed.
End CStep.

Theorem ser_csaved n : forall o co comps cx w o' p w', built E o -> recorded E o -> (co = true -> direct o) -> sctx i comps cx -> ok w ->
  f_ser (depth E n) (Some cx) co o w = (Ok (o', p), w') -> CSaved n comps (if co then dty_of o else None) w w' p (is_storable E2 o, removes E o).
Proof.
  induction n as [|n IH]; intros o co comps cx w o' p w' Hb Hrc Hd Hs Hok H; [discriminate|].
  apply (step_csaved n IH o co comps cx w o' p w' Hb Hrc Hd Hs Hok H).
Qed.
End CSave.
