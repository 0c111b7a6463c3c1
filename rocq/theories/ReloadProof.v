(** Loading a saved model and saving what was loaded: the same data, the same files. *)
From Coq Require Import List Ascii String Bool Arith ZArith Lia.
From Verif Require Import Base PosixModel FsModel PathModel SerialModel StoreModel StoreFrame StoreMount StoreSpec StoreLocal StorePlace
     StoreRecord RoundSpec KeepSpec CleanSpec AgainSpec RoundProof CleanProof ReplayProof DropProof DropSettled KeepProof SameProof AgainProof PathSpec MountSpec DirSpec PosixProof FsProof DirProof TargetProof MountProof HistoryProof PathFacts SerialSpec SerialProof.
Import ListNotations.

Local Arguments str_eq_dec : simpl never.
Local Arguments atom_eq_dec : simpl never.

(** ** Loading and serializing again *)
Section Reload.
Variable E2 : senv.
Variable D0 : str.
Hypothesis Hcwd : absolute (s_cwd E2).
Hypothesis Hdir : absolute D0.
Hypothesis Hlim : s_limit E2 = None.
Hypothesis Hret : s_retouch E2 = $"auto" \/ s_retouch E2 = $"quit".
Hypothesis Hval : s_validate E2 = true.
Let D := location (s_cwd E2) D0.
Let Hun := RoundProof.Hun E2 Hret.
Notation claimed := (RoundProof.claimed E2).

Definition idle (g : files) (j : nat) (w : world) : Prop := forall l c, g l c -> ~ claimed j D0 w l.
(** The files [g] may have been handed out; no file changed. *)
Definition Stay (g : files) (j : nat) (w w' : world) : Prop :=
  mnt_ok j D0 w' /\ w_uuid w' = w_uuid w /\ (forall l, claimed j D0 w' l -> claimed j D0 w l \/ exists c, g l c) /\
  (forall q, file_at (w_fs w') q = file_at (w_fs w) q).
Definition Back (g : files) (comps : list str) (co : bool) (o : obj) (p : pser) : Prop :=
  forall K j cx w o2 p2 w2, sctx j comps cx -> mnt_ok j D0 w -> idle g j w -> has g w ->
    f_ser (depth E2 K) (Some cx) co o w = (Ok (o2, p2), w2) -> o2 = o /\ p2 = p /\ Stay g j w w2.
(** The name under which objects of a type are serialized. *)
Definition namer (d : dty) : str :=
  match d with
  | DRec => n_record
  | DSeq r s => seq_name r s
  | DMap s => map_name s
  | DModel c => match k_ser (s_class E2 c) with Some nm => nm | None => [] end
  | DMark k => mark_name k
  end.
Definition Backs (x : option dty) (g : files) (comps : list str) (o : obj) (p : pser) : Prop :=
  match x with
  | None => Back g comps false o p
  | Some d => forall co, Back g comps co o (emit co (namer d, p))
  end.
Definition Rel (n : nat) (g : files) (comps : list str) (x : option dty) (p : pser) (st : option str) : Prop :=
  forall K j cx w, n <= K -> sctx j comps cx -> mnt_ok j D0 w -> has g w ->
  exists o w', f_de (depth E2 K) (Some cx) x p w = (Ok o, w') /\ quiet w w' /\ Backs x g comps o p /\ sto_name E2 o = st /\
    (x <> None -> direct o) /\ rec_exists o && is_serializable E2 o = true /\ (o = OAtom ANone -> p = PAtom ANone).

Lemma not_sto o : sto_name E2 o = None -> is_storable E2 o = false.
Proof. intros H. unfold is_storable. rewrite H. reflexivity. Qed.
Lemma stay_none g j w : mnt_ok j D0 w -> Stay g j w w.
Proof. intros Hok. split; [assumption|]. split; [reflexivity|]. split; auto. Qed.
Lemma idle_left g1 g2 g j w : joined g1 g2 g -> idle g j w -> idle g1 j w.
Proof. intros [H _] Hf l c Hl. apply (Hf l c), H. auto. Qed.
Lemma idle_right g1 g2 g j w w1 : joined g1 g2 g -> idle g j w -> Stay g1 j w w1 -> idle g2 j w1.
Proof.
  intros [H Hd] Hf (_ & _ & Hc & _) l c Hl Hx. apply Hc in Hx as [Hx|[c' Hx]]; [apply (Hf l c); [apply H; auto|assumption]|]. exact (Hd l c' c Hx Hl).
Qed.
Lemma stay_has g g2 j w w1 : Stay g j w w1 -> has g2 w -> has g2 w1.
Proof. intros (_ & _ & _ & H) Hh l c Hl. rewrite H. auto. Qed.
Lemma stay_join g1 g2 g j w w1 w2 : joined g1 g2 g -> Stay g1 j w w1 -> Stay g2 j w1 w2 -> Stay g j w w2.
Proof.
  intros [H Hd] (A1 & A2 & A3 & A4) (B1 & B2 & B3 & B4). split; [assumption|]. split; [congruence|]. split.
  - intros l Hl. destruct (B3 l Hl) as [Hx|[c Hx]]; [|right; exists c; apply H; auto]. destruct (A3 l Hx) as [|[c Hy]]; [auto|]. right. exists c. apply H. auto.
  - intros q. rewrite B4, A4. reflexivity.
Qed.
Lemma back_body g comps co o p :
  (forall K j cx w o2 p2 w2, sctx j comps cx -> mnt_ok j D0 w -> idle g j w -> has g w ->
     ser_body E2 (depth E2 K) (Some cx) co o w = (Ok (o2, p2), w2) -> o2 = o /\ p2 = p /\ Stay g j w w2) ->
  Back g comps co o p.
Proof. intros H K j cx w o2 p2 w2 Hs Hok Hf Hh Hr. destruct K as [|K]; [discriminate|]. exact (H K j cx w o2 p2 w2 Hs Hok Hf Hh Hr). Qed.

(** *** Lists of objects *)
Definition Got (comps : list str) (g : files) (x : obj * pser) : Prop :=
  Back g comps false (fst x) (snd x) /\ sto_name E2 (fst x) = None /\ rec_exists (fst x) = true.
Lemma mapM_rel n comps g ps : Parts (fun g p => Rel n g comps None p None) g ps -> forall K j cx w, n <= K -> sctx j comps cx -> mnt_ok j D0 w -> has g w ->
  exists xs w', mapM (f_de (depth E2 K) (Some cx) None) ps w = (Ok (map fst xs), w') /\ quiet w w' /\ Parts (Got comps) g xs /\ map snd xs = ps.
Proof.
  induction 1 as [g Hn|g1 g2 g p ps Hp Hps IH Hj]; intros K j cx w HK Hs Hok Hh.
  - exists [], w. split; [reflexivity|]. split; [apply quiet_refl|]. split; [constructor; assumption|reflexivity].
  - destruct (Hp K j cx w HK Hs Hok (has_left _ _ _ _ Hj Hh)) as (o & w1 & H1 & H2 & H3 & H4 & _ & H5 & _).
    destruct (IH K j cx w1 HK Hs (quiet_ok D0 Hdir _ _ _ H2 Hok) (quiet_has _ _ _ H2 (has_right _ _ _ _ Hj Hh))) as (xs & w2 & G1 & G2 & G3 & G4).
    exists ((o, p) :: xs), w2. split; [|split; [eapply quiet_trans; eassumption|split; [|cbn; congruence]]].
    + cbn [mapM map fst]. unfold mbind. rewrite H1, G1. reflexivity.
    + econstructor; [|eassumption|eassumption]. split; [exact H3|]. split; [assumption|]. apply andb_prop in H5. tauto.
Qed.
Lemma mapM_back {X Y Z} (f : X -> M Y) (Q : files -> Z -> Prop) (ob : Z -> X) (ou : Z -> Y) j :
  (forall g z, Q g z -> forall w y w', mnt_ok j D0 w -> idle g j w -> has g w -> f (ob z) w = (Ok y, w') -> y = ou z /\ Stay g j w w') ->
  forall g zs, Parts Q g zs -> forall w ys w', mnt_ok j D0 w -> idle g j w -> has g w -> mapM f (map ob zs) w = (Ok ys, w') -> ys = map ou zs /\ Stay g j w w'.
Proof.
  intros Hf g zs Hp. induction Hp as [g Hn|g1 g2 g z zs Hz Hp IH Hj]; intros w ys w' Hok Hfr Hh H; cbn [map mapM] in H.
  - unfold ret in H. injection H as <- <-. split; [reflexivity|apply stay_none; assumption].
  - apply mbind_ok in H as (y & w1 & H1 & H). apply mbind_ok in H as (ys0 & w2 & H2 & H). unfold ret in H. injection H as <- <-.
    destruct (Hf g1 z Hz w y w1 Hok (idle_left _ _ _ _ _ Hj Hfr) (has_left _ _ _ _ Hj Hh) H1) as [-> A1].
    destruct (IH w1 ys0 w2 (proj1 A1) (idle_right _ _ _ _ _ _ Hj Hfr A1) (stay_has _ _ _ _ _ A1 (has_right _ _ _ _ Hj Hh)) H2) as [-> A2].
    split; [reflexivity|eapply stay_join; eassumption].
Qed.
Lemma item_back comps K j cx g x : Got comps g x -> sctx j comps cx -> forall w y w', mnt_ok j D0 w -> idle g j w -> has g w ->
  ser_item E2 (depth E2 K) (Some cx) (fst x) w = (Ok y, w') -> y = (fst x, Some (snd x)) /\ Stay g j w w'.
Proof.
  intros (Hb & _ & Hr) Hs w y w' Hok Hf Hh H. apply item_run in H as (p & H & Hp); [|assumption].
  destruct (Hb K j cx w (fst y) p w' Hs Hok Hf Hh H) as (A1 & -> & A3). split; [|assumption]. destruct y. cbn in *. congruence.
Qed.
Lemma plain_back comps K j cx g x : Got comps g x -> sctx j comps cx -> forall w y w', mnt_ok j D0 w -> idle g j w -> has g w ->
  ser_plain_item E2 (depth E2 K) (Some cx) (fst x) w = (Ok y, w') -> y = x /\ Stay g j w w'.
Proof.
  intros (Hb & Hst & _) Hs w y w' Hok Hf Hh H. unfold ser_plain_item in H. rewrite (not_sto _ Hst) in H. destruct y as [o2 p2].
  destruct (Hb K j cx w o2 p2 w' Hs Hok Hf Hh H) as (A1 & A2 & A3). split; [|assumption]. destruct x. cbn in *. congruence.
Qed.
Lemma got_bare comps g xs : Parts (Got comps) g xs -> Forall (fun o => is_storable E2 o = false) (map fst xs).
Proof. intros Hp. induction Hp as [|g1 g2 g x xs (_ & H & _) Hp IH Hj]; cbn; constructor; auto. apply not_sto. assumption. Qed.
Lemma no_bare l : Forall (fun o => is_storable E2 o = false) l -> existsb (is_storable E2) l = false.
Proof. intros H. apply no_storable. rewrite Forall_forall in H. exact H. Qed.
Lemma items_kept (xs : list (obj * pser)) : let ys := map (fun x : obj * pser => (fst x, Some (snd x))) xs in
  dangling ys = [] /\ kept ys = map snd xs /\ map fst ys = map fst xs /\ Forall (fun y : obj * option pser => snd y <> None) ys /\ map item_ps ys = map snd xs.
Proof.
  induction xs as [|[o p] xs (H1 & H2 & H3 & H4 & H5)]; [repeat split; constructor|]. unfold dangling, kept in *. cbn in *. rewrite H1, H2, H3, H5.
  repeat split. constructor; [discriminate|assumption].
Qed.

(** *** Each kind of object *)
Lemma Rel_typed n g comps d e st : ser_ty E2 (namer d) = Some d -> Rel (S n) g comps (Some d) (PDict e) st -> Rel (S n) g comps None (typed (namer d) (PDict e)) st.
Proof.
  intros Hn H K j cx w HK Hs Hok Hh. destruct K as [|K]; [lia|]. rewrite f_de_typed with (d := d) by assumption.
  destruct (H (S K) j cx w HK Hs Hok Hh) as (o & w' & H1 & H2 & H3 & H4 & H5 & H6 & H7). exists o, w'. split; [assumption|]. split; [assumption|].
  split; [exact (H3 false)|]. split; [assumption|]. split; [congruence|]. split; [assumption|]. intros ->. exfalso. apply H5; [discriminate|reflexivity].
Qed.
Lemma Rel_atom n g comps a : Rel (S n) g comps None (PAtom a) None.
Proof.
  intros K j cx w HK Hs Hok Hh. destruct K as [|K]; [lia|]. exists (OAtom a), w.
  split; [cbn [depth f_de]; unfold de_body; destruct a; reflexivity|]. split; [apply quiet_refl|]. split; [|split; [reflexivity|split; [congruence|split; [reflexivity|congruence]]]].
  apply back_body. intros K' j2 cx2 w2 o2 p2 w3 Hs2 Hok2 Hf2 Hh2 H. injection H as <- <- <-. split; [reflexivity|]. split; [reflexivity|apply stay_none; assumption].
Qed.
Lemma Rel_list n g comps ps : Parts (fun g p => Rel n g comps None p None) g ps -> Rel (S n) g comps None (PList ps) None.
Proof.
  intros Hp K j cx w HK Hs Hok Hh. destruct K as [|K]; [lia|].
  destruct (mapM_rel n comps g ps Hp K j cx w) as (xs & w1 & H1 & H2 & H3 & <-); [lia|assumption|assumption|assumption|].
  exists (OList (map fst xs)), w1. split; [cbn [depth f_de]; unfold de_body, mbind; rewrite H1; reflexivity|]. split; [assumption|].
  split; [|split; [reflexivity|split; [congruence|split; [reflexivity|discriminate]]]].
  apply back_body. intros K' j2 cx2 w2 o2 p2 w3 Hs2 Hok2 Hf2 Hh2 H. cbn [ser_body] in H. unfold ser_list in H. apply mbind_ok in H as (ys & wd & H4 & H). cbn zeta in H. unfold ret in H. injection H as <- <- <-.
  destruct (mapM_back (ser_plain_item E2 (depth E2 K') (Some cx2)) (Got comps) fst (fun x => x) j2) with (g := g) (zs := xs) (w := w2) (ys := ys) (w' := wd) as [-> A]; [|assumption|assumption|assumption|assumption|assumption|].
  { intros g0 x Hx. eapply plain_back; eassumption. }
  rewrite map_id. rewrite (no_bare _ (got_bare _ _ _ H3)). auto.
Qed.
Lemma Rel_dict n g comps ks ps : List.length ks = List.length ps -> ~ In (AStr SER_TYPE) ks -> Parts (fun g p => Rel n g comps None p None) g ps ->
  Rel (S n) g comps None (PDict (combine ks ps)) None.
Proof.
  intros Hl Hk Hp K j cx w HK Hs Hok Hh. destruct K as [|K]; [lia|].
  destruct (mapM_rel n comps g ps Hp K j cx w) as (xs & w1 & H1 & H2 & H3 & <-); [lia|assumption|assumption|assumption|].
  rewrite map_length in Hl.
  assert (Hno : assoc_a (AStr SER_TYPE) (combine ks (map snd xs)) = None).
  { destruct (assoc_a (AStr SER_TYPE) (combine ks (map snd xs))) eqn:Ea; [|reflexivity]. apply assoc_a_in in Ea. apply in_combine_l in Ea. contradiction. }
  assert (Hls : List.length ks = List.length (map snd xs)) by (rewrite map_length; assumption).
  assert (Hlf : List.length ks = List.length (map fst xs)) by (rewrite map_length; assumption).
  exists (ODict (combine ks (map fst xs))), w1. split.
  { cbn [depth f_de]. unfold de_body. rewrite Hno. unfold mbind at 1. unfold mbind at 1. rewrite mapM_keyed, combine_snd, combine_fst, H1 by assumption. reflexivity. }
  split; [assumption|]. split; [|split; [reflexivity|split; [congruence|split; [reflexivity|discriminate]]]].
  apply back_body. intros K' j2 cx2 w2 o2 p2 w3 Hs2 Hok2 Hf2 Hh2 H. cbn [ser_body] in H. unfold ser_dict in H. apply mbind_ok in H as (zs & wd & H4 & H). cbn zeta in H. unfold ret in H. injection H as <- <- <-.
  apply mapM_keyed_ok in H4 as (ys & H4 & -> & Hlen). rewrite combine_snd in H4 by assumption. rewrite combine_fst in * by assumption.
  destruct (mapM_back (ser_plain_item E2 (depth E2 K') (Some cx2)) (Got comps) fst (fun x => x) j2) with (g := g) (zs := xs) (w := w2) (ys := ys) (w' := wd) as [-> A]; [|assumption|assumption|assumption|assumption|assumption|].
  { intros g0 x Hx. eapply plain_back; eassumption. }
  rewrite map_id. rewrite combine_snd, (no_bare _ (got_bare _ _ _ H3)) by assumption. rewrite (keyed ks fst xs Hl), (keyed ks snd xs Hl). auto.
Qed.
Lemma Rel_seq n g comps q ps : Parts (fun g p => Rel n g comps None p None) g ps ->
  Rel (S n) g comps (dty_of (OSeq q [] [])) (PDict (seq_dict q ps)) (sto_name E2 (OSeq q [] [])).
Proof.
  intros Hp K j cx w HK Hs Hok Hh. destruct K as [|K]; [lia|].
  destruct (mapM_rel n comps g ps Hp K j cx w) as (xs & w1 & H1 & H2 & H3 & <-); [lia|assumption|assumption|assumption|].
  destruct (seq_dict_get q (map snd xs)) as (D1 & D2 & D3 & D4).
  exists (OSeq q (map fst xs) []), w1. split.
  { cbn [dty_of]. apply f_de_some; [|discriminate]. eapply de_object_ok; [reflexivity|]. unfold de_seq. rewrite D1, D2, D3. unfold mbind. rewrite H1.
    rewrite seq_fold_plain by (eapply got_bare; eassumption). destruct q as [sto sub pre [[[stem nn] ss]|]]; cbn [q_runs q_sto q_sub q_pre app] in *; [|reflexivity].
    destruct D4 as (D4 & D5 & D6). rewrite D4, D5, D6, N2Z.id. reflexivity. }
  split; [assumption|]. split; [|split; [reflexivity|split; [discriminate|split; [reflexivity|discriminate]]]].
  cbn [dty_of Backs namer]. intros co. apply back_body. intros K' j2 cx2 w2 o2 p2 w3 Hs2 Hok2 Hf2 Hh2 H.
  eapply (run_method E2 Hval) in H as (p3 & H & ->); [|discriminate|discriminate|discriminate|cbn [ser_method]; reflexivity].
  unfold ser_seq in H. apply mbind_ok in H as (r3 & wd & H5 & H). rewrite rm_none in H5. injection H5 as _ <-.
  apply mbind_ok in H as (ys & wd & H5 & H).
  destruct (mapM_back (ser_item E2 (depth E2 K') (Some cx2)) (Got comps) fst (fun x => (fst x, Some (snd x))) j2) with (g := g) (zs := xs) (w := w2) (ys := ys) (w' := wd) as [-> A]; [|assumption|assumption|assumption|assumption|assumption|].
  { intros g0 x Hx. eapply item_back; eassumption. }
  destruct (items_kept xs) as (I1 & I2 & I3 & I4 & I5). cbn zeta in *. rewrite I1, I2, I3 in H. apply mbind_ok in H as (r4 & we & H6 & H). rewrite rm_none in H6. injection H6 as _ <-. unfold ret in H. injection H as <- <- <-.
  split; [destruct (s_clean E2); reflexivity|]. split; [reflexivity|assumption].
Qed.
Lemma Rel_map n g comps p ks ps : List.length ks = List.length ps -> NoDup ks -> Parts (fun g p => Rel n g comps None p None) g ps ->
  Rel (S n) g comps (dty_of (OMap p [] [])) (PDict (map_dict p (map (fun kv => (AStr (fst kv), snd kv)) (combine ks ps)))) (sto_name E2 (OMap p [] [])).
Proof.
  intros Hl Hk Hp K j cx w HK Hs Hok Hh. destruct K as [|K]; [lia|].
  destruct (mapM_rel n comps g ps Hp K j cx w) as (xs & w1 & H1 & H2 & H3 & <-); [lia|assumption|assumption|assumption|].
  destruct (map_dict_get p (map (fun kv => (AStr (fst kv), snd kv)) (combine ks (map snd xs)))) as (D1 & D2).
  rewrite map_length in Hl.
  assert (Hls : List.length ks = List.length (map snd xs)) by (rewrite map_length; assumption).
  assert (Hlf : List.length ks = List.length (map fst xs)) by (rewrite map_length; assumption).
  exists (OMap p (combine ks (map fst xs)) []), w1. split.
  { cbn [dty_of]. apply f_de_some; [|discriminate]. eapply de_object_ok; [reflexivity|]. unfold de_map. rewrite D1, D2. unfold mbind at 1.
    rewrite mapM_str_keyed, combine_snd, combine_fst, H1 by assumption. rewrite map_fold_plain; [reflexivity| |].
    - cbn [map app]. rewrite combine_fst by assumption. assumption.
    - pose proof (got_bare _ _ _ H3) as Hb. rewrite Forall_forall in *. intros [a b] Hi. apply in_combine_r in Hi. cbn. auto. }
  split; [assumption|]. split; [|split; [reflexivity|split; [discriminate|split; [reflexivity|discriminate]]]].
  cbn [dty_of Backs namer]. intros co. apply back_body. intros K' j2 cx2 w2 o2 p2 w3 Hs2 Hok2 Hf2 Hh2 H.
  eapply (run_method E2 Hval) in H as (p3 & H & ->); [|discriminate|discriminate|discriminate|cbn [ser_method]; reflexivity].
  unfold ser_map in H. apply mbind_ok in H as (r3 & wd & H5 & H). rewrite rm_none' in H5. injection H5 as _ <-.
  apply mbind_ok in H as (zs & wd & H5 & H). apply mapM_keyed_ok in H5 as (ys & H5 & -> & Hlen). rewrite combine_snd in H5 by assumption. rewrite combine_fst in * by assumption.
  destruct (mapM_back (ser_item E2 (depth E2 K') (Some cx2)) (Got comps) fst (fun x => (fst x, Some (snd x))) j2) with (g := g) (zs := xs) (w := w2) (ys := ys) (w' := wd) as [-> A]; [|assumption|assumption|assumption|assumption|assumption|].
  { intros g0 x Hx. eapply item_back; eassumption. }
  destruct (items_kept xs) as (I1 & I2 & I3 & I4 & I5). cbn zeta in *. rewrite combine_snd, I1 in H by assumption.
  apply mbind_ok in H as (r4 & we & H6 & H). rewrite rm_none in H6. injection H6 as _ <-. unfold ret in H. injection H as <- <- <-.
  rewrite keyed_forms, I5, (keyed ks fst _ Hlen), I3 by assumption. split; [reflexivity|]. split; [reflexivity|assumption].
Qed.

(** Modelclass instances. *)
Definition toldr (n : nat) (comps : list str) (d : list (atom * pser)) (g : files) (f : mfield) : Prop :=
  (assoc_a (AStr (mf_name f)) d = None /\ none g /\ (mf_default f = None \/ mf_default f = Some (OAtom ANone))) \/
  (exists p st, assoc_a (AStr (mf_name f)) d = Some p /\ p <> PAtom ANone /\ Rel n g comps None p st /\ (st = None \/ mf_wrap f = None)).
(** The entries of the fields, in the order of the fields. *)
Definition entry (d : list (atom * pser)) (f : mfield) : list (atom * pser) :=
  match assoc_a (AStr (mf_name f)) d with Some p => [(AStr (mf_name f), p)] | None => [] end.
Definition gotf (comps : list str) (d : list (atom * pser)) (fs : list (str * obj)) (g : files) (f : mfield) : Prop :=
  exists v, assoc (mf_name f) fs = Some v /\
  ((assoc_a (AStr (mf_name f)) d = None /\ v = OAtom ANone) \/
   (exists p, assoc_a (AStr (mf_name f)) d = Some p /\ v <> OAtom ANone /\ Back g comps false v p)).
Notation served := (filter (fun f => negb (mf_noser f))).
Lemma de_fields_rel n comps d fds : NoDup (map mf_name fds) -> (forall f, In f fds -> mf_noser f = true -> assoc_a (AStr (mf_name f)) d = None) ->
  forall g, Parts (toldr n comps d) g (served fds) ->
  forall K j cx w, n <= K -> sctx j comps cx -> mnt_ok j D0 w -> has g w ->
  exists fs w', de_fields E2 (depth E2 K) (Some cx) fds d w = (Ok fs, w') /\ quiet w w' /\ Parts (gotf comps d fs) g (served fds).
Proof.
  induction fds as [|f fds IH]; intros Hnd Hns g Hp K j cx w HK Hs Hok Hh.
  - exists [], w. split; [reflexivity|]. split; [apply quiet_refl|]. inversion Hp; subst. constructor; assumption.
  - cbn [map] in Hnd. inversion Hnd as [|? ? N1 N2]; subst. cbn [filter] in *. destruct (mf_noser f) eqn:En; cbn [negb] in *.
    + pose proof (Hns f (or_introl eq_refl) En) as Ha.
      destruct (IH N2 (fun f0 H => Hns f0 (or_intror H)) g Hp K j cx w HK Hs Hok Hh) as (fs & w1 & H1 & H2 & H3).
      eexists _, w1. split.
      { cbn [de_fields]. rewrite mbind_run. rewrite Ha. unfold ret at 1. rewrite mbind_run, H1. reflexivity. }
      split; [assumption|]. eapply Parts_impl; [|exact H3]. intros g0 f0 Hf0 (v & V1 & V2). exists v. split; [|assumption].
      cbn [assoc]. destruct (str_eq_dec (mf_name f) (mf_name f0)) as [Hx|]; [|assumption]. exfalso. apply N1. rewrite Hx. apply in_map. apply filter_In in Hf0. tauto.
    + inversion Hp as [|g1 g2 g' f' l' Hf Hl Hj]; subst.
      assert (Hv : exists v w1, (match assoc_a (AStr (mf_name f)) d with
           | Some (PAtom ANone) | None => ret (match mf_default f with Some v => v | None => OAtom ANone end)
           | Some p => f_de (depth E2 K) (Some cx) None p end) w = (Ok v, w1) /\ quiet w w1 /\
           ((assoc_a (AStr (mf_name f)) d = None /\ v = OAtom ANone) \/
            (exists p, assoc_a (AStr (mf_name f)) d = Some p /\ v <> OAtom ANone /\ Back g1 comps false v p)) /\ wrap_new E2 f v = v).
      { destruct Hf as [(Ha & Hn & Hd)|(p & st & Ha & Hpn & Hc & Hb)].
        - rewrite Ha. exists (OAtom ANone), w. split; [destruct Hd as [-> | ->]; reflexivity|]. split; [apply quiet_refl|]. split; [left; auto|].
          unfold wrap_new. destruct (mf_wrap f) as [[]|]; reflexivity.
        - rewrite Ha. destruct (Hc K j cx w HK Hs Hok (has_left _ _ _ _ Hj Hh)) as (o & w1 & H1 & H2 & H3 & H4 & _ & _ & H5).
          exists o, w1. split; [destruct p as [[]| |]; try exact H1; congruence|]. split; [assumption|].
          split; [right; exists p; split; [reflexivity|]; split; [intros Hx; apply Hpn, H5; exact Hx|exact H3]|].
          unfold wrap_new. destruct (mf_wrap f) as [[]|]; [|reflexivity]. destruct Hb as [Hb|Hb]; [|discriminate]. rewrite not_sto by congruence. reflexivity. }
      destruct Hv as (v & w1 & V1 & V2 & V3 & V4).
      destruct (IH N2 (fun f0 H => Hns f0 (or_intror H)) g2 Hl K j cx w1 HK Hs (quiet_ok D0 Hdir _ _ _ V2 Hok) (quiet_has _ _ _ V2 (has_right _ _ _ _ Hj Hh))) as (fs & w2 & F1 & F2 & F3).
      exists ((mf_name f, v) :: fs), w2. split.
      { cbn [de_fields]. rewrite mbind_run, V1, mbind_run, F1, V4. reflexivity. }
      split; [eapply quiet_trans; eassumption|]. econstructor; [| |exact Hj].
      * exists v. split; [|assumption]. cbn [assoc]. destruct (str_eq_dec (mf_name f) (mf_name f)); congruence.
      * eapply Parts_impl; [|exact F3]. intros g0 f0 Hf0 (v0 & W1 & W2). exists v0. split; [|assumption].
        cbn [assoc]. destruct (str_eq_dec (mf_name f) (mf_name f0)) as [Hx|]; [|assumption]. exfalso. apply N1. rewrite Hx. apply in_map. apply filter_In in Hf0. tauto.
Qed.
Lemma fields_back comps d fds fs : forall g, Parts (gotf comps d fs) g (served fds) ->
  forall K j cx w fs2 d2 w2, sctx j comps cx -> mnt_ok j D0 w -> idle g j w -> has g w ->
  ser_fields_m (depth E2 K) (Some cx) fds fs w = (Ok (fs2, d2), w2) -> fs2 = fs /\ d2 = flat_map (entry d) (served fds) /\ Stay g j w w2.
Proof.
  induction fds as [|f fds IH]; intros g Hp K j cx w fs2 d2 w2 Hs Hok Hf Hh H.
  - injection H as <- <- <-. split; [reflexivity|]. split; [reflexivity|apply stay_none; assumption].
  - cbn [filter] in *. cbn [ser_fields_m] in H. destruct (mf_noser f) eqn:En; cbn [negb] in *; [exact (IH g Hp K j cx w fs2 d2 w2 Hs Hok Hf Hh H)|].
    inversion Hp as [|g1 g2 g' f' l' (v & Ha & Hv) Hl Hj]; subst. rewrite Ha in H. cbn [flat_map]. unfold entry at 1.
    destruct Hv as [[Hn ->]|(p & Hp1 & Hnn & Hb)].
    + rewrite Hn. cbn [app].
      assert (A1 : Stay g1 j w w) by (apply stay_none; assumption).
      destruct (IH g2 Hl K j cx w fs2 d2 w2 Hs Hok (idle_right _ _ _ _ _ _ Hj Hf A1) (has_right _ _ _ _ Hj Hh) H) as (-> & -> & A2).
      split; [reflexivity|]. split; [reflexivity|eapply stay_join; eassumption].
    + rewrite Hp1. assert (H' : (x <- f_ser (depth E2 K) (Some cx) false v;; y <- ser_fields_m (depth E2 K) (Some cx) fds (assoc_set (mf_name f) (fst x) fs);; ret (fst y, (AStr (mf_name f), snd x) :: snd y)) w = (Ok (fs2, d2), w2)).
      { destruct v as [[| | | |]|l|dd|c x|c x u|q x u|q x u|? ? ? ? ?|? ? ? ?|?|?]; try exact H. congruence. }
      clear H. apply mbind_ok in H' as ([o1 p1] & w1 & H1 & H'). apply mbind_ok in H' as ([fs1 d1] & w3 & H2 & H'). unfold ret in H'. cbn [fst snd] in H', H2. injection H' as <- <- <-.
      destruct (Hb K j cx w o1 p1 w1 Hs Hok (idle_left _ _ _ _ _ Hj Hf) (has_left _ _ _ _ Hj Hh) H1) as (-> & -> & A1). rewrite (FsProof.assoc_set_id _ _ _ Ha) in H2.
      destruct (IH g2 Hl K j cx w1 fs1 d1 w3 Hs (proj1 A1) (idle_right _ _ _ _ _ _ Hj Hf A1) (stay_has _ _ _ _ _ A1 (has_right _ _ _ _ Hj Hh)) H2) as (-> & -> & A2).
      split; [reflexivity|]. split; [reflexivity|eapply stay_join; eassumption].
Qed.
Lemma Rel_model n g comps c fds d nm : k_kind (s_class E2 c) = SModel fds -> k_ser (s_class E2 c) = Some nm -> ser_ty E2 nm = Some (DModel c) -> NoDup (map mf_name fds) ->
  (forall f, In f fds -> mf_noser f = true -> assoc_a (AStr (mf_name f)) d = None) -> d = flat_map (entry d) (served fds) -> Parts (toldr n comps d) g (served fds) ->
  Rel (S n) g comps (Some (DModel c)) (PDict d) (sto_name E2 (OModel c [] [])).
Proof.
  intros Hk Hnm Hty Hnd Hno Hde Ht K j cx w HK Hs Hok Hh. destruct K as [|K]; [lia|].
  destruct (de_fields_rel n comps d fds Hnd Hno g Ht K j cx w) as (fs & w1 & F1 & F2 & F3); [lia|assumption|assumption|assumption|].
  exists (OModel c fs []), w1. split.
  { apply f_de_some; [|discriminate]. eapply de_object_ok; [reflexivity|]. unfold de_model. rewrite Hk, mbind_run, F1. reflexivity. }
  split; [assumption|]. split; [|split; [reflexivity|split; [discriminate|split; [cbn; rewrite Hnm, Hty; reflexivity|discriminate]]]].
  cbn [Backs namer]. rewrite Hnm. intros co. apply back_body. intros K' j2 cx2 w2 o2 p2 w3 Hs2 Hok2 Hf2 Hh2 H.
  assert (Hm2 : ser_method E2 (depth E2 K') (Some cx2) (OModel c fs []) = Some (nm, ser_model E2 (depth E2 K') (Some cx2) c fds fs [])).
  { cbn [ser_method]. rewrite Hnm, Hk, Hty. reflexivity. }
  eapply (run_method E2 Hval) in H as (p3 & H & ->); [| | | |exact Hm2]; try discriminate. unfold ser_model in H.
  apply mbind_ok in H as (r3 & wd & H5 & H). rewrite rm_none in H5. injection H5 as <- <-.
  apply mbind_ok in H as ([fs3 d3] & we & H6 & H). unfold ret in H. cbn [fst snd] in H. injection H as <- <- <-.
  destruct (fields_back comps d fds fs g F3 K' j2 cx2 w2 fs3 d3 we Hs2 Hok2 Hf2 Hh2 H6) as (-> & -> & A). rewrite <- Hde. split; [|split; [reflexivity|assumption]]. destruct (s_clean E2); reflexivity.
Qed.

(** Records. *)
Definition Held (g1 : files) (deep : list str) (c0 : content) (o : obj) : Prop :=
  (exists c d, o = OLeaf c d /\ forall k, s_write E2 c k d = (Some c0, None)) \/
  (direct o /\ is_storable E2 o = true /\ exists p1, Back g1 deep true o p1 /\ c0 = Json (to_json (s_float E2) p1)).
Definition ReadsR (n : nat) (g g1 : files) (comps deep : list str) (c0 : content) (out : target) (ty : str) : Prop :=
  forall K j cx w, n <= K -> sctx j comps cx -> mnt_ok j D0 w -> has g w ->
  exists o w', ctx_read E2 (depth E2 K) cx out (Some ty) w = (Ok o, w') /\ quiet w w' /\ Held g1 deep c0 o /\ sto_name E2 o = Some ty.
Lemma held_solid g1 deep c0 o : Held g1 deep c0 o -> solid o.
Proof. intros [(c & d & -> & _)|(H & _)]; [exact I|apply direct_solid; assumption]. Qed.
Lemma ReadsR_leaf n (g g1 : files) comps deep out cs ty c x d : D = comps_cp D0 -> places out cs -> g (D ++ comps ++ cs) x -> sto_ty E2 ty = Some (STLeaf c) ->
  k_sto (s_class E2 c) = Some ty -> (forall k, s_read E2 c k x = Ok d) -> (forall k, s_write E2 c k d = (Some x, None)) -> ReadsR n g g1 comps deep x out ty.
Proof.
  intros HD Hp Hg Hty Hst Hr Hw K j cx w HK Hs Hok Hh.
  destruct (ctx_read_leaf E2 j D0 (depth E2 K) cx comps out cs w ty c x d Hcwd Hdir Hlim HD Hok Hs Hp (Hh _ _ Hg) Hty Hr) as (w' & H1 & H2 & H3).
  exists (OLeaf c d), w'. split; [assumption|]. split; [split; assumption|]. split; [left; exists c, d; split; [reflexivity|assumption]|exact Hst].
Qed.
Lemma ReadsR_obj n (g g1 : files) comps out cs ty d p : D = comps_cp D0 -> places out cs -> g (D ++ comps ++ cs) (Json (to_json (s_float E2) p)) ->
  json_ready p -> sto_ty E2 ty = Some (STObj d) -> (forall l c, g1 l c -> g l c) -> Rel n g1 (comps ++ removelast cs) (Some d) p (Some ty) ->
  ReadsR n g g1 comps (comps ++ removelast cs) (Json (to_json (s_float E2) p)) out ty.
Proof.
  intros HD Hp Hg Hj Hty Hsub Hl K j cx w HK Hs Hok Hh. pose proof (places_clean out cs Hp) as [_ Hne].
  assert (Hcs : exists l0 z, cs = l0 ++ [z]) by (destruct (exists_last Hne) as (l0 & z & Hz); eauto). destruct Hcs as (l0 & z & ->).
  pose proof (Hh _ _ Hg) as Hf. set (fr := s_float E2) in *.
  destruct (read_place E2 j D0 Hcwd Hdir comps cx out (l0 ++ [z]) w Hlim HD Hok Hs Hp) as (local & nt & w1 & H1 & H2 & H3 & H4 & H5).
  { rewrite removelast_last. intros q Hq. rewrite !app_assoc in Hf. eapply file_free; [exact Hf|]. rewrite <- app_assoc. exact Hq. }
  set (l := D ++ comps ++ l0 ++ [z]) in *. set (w1' := logged (EvRead l) w1).
  assert (Hq1 : quiet w w1').
  { split; [exact H4|]. intros j1 D1 HD1 Hj1. apply (ctx_prepare_ign_ok E2 j1 D1 _ _ _ _ _ Hcwd HD1 H1 Hj1). }
  destruct (Hl K j local w1') as (o & w2 & G1 & G2 & G3 & G4 & G5 & _); [assumption|assumption|eapply quiet_ok; eassumption| |].
  { eapply quiet_has; [exact Hq1|]. intros l' c' H'. auto. }
  exists o, w2. split; [|split; [eapply quiet_trans; eassumption|split; [right|assumption]]].
  - unfold ctx_read, attempt. rewrite mbind_run. rewrite mbind_run. rewrite H1.
    rewrite mbind_run. fold D in H5. rewrite (H5 w1 H3). fold l. unfold read_storable. rewrite Hty. rewrite mbind_run. unfold m_read at 1. rewrite op_free by assumption.
    assert (Hlk : lookup (w_fs w1) l = Some (File (Json (to_json fr p)))).
    { rewrite <- H4 in Hf. unfold file_at in Hf. destruct (lookup _ _) as [[|]|]; congruence. }
    cbn [logged w_fs]. rewrite Hlk. pose proof (through_json_ready fr p Hj) as Ht. unfold through_json in Ht. rewrite Ht. fold w1'. rewrite G1. reflexivity.
  - split; [apply G5; discriminate|]. split; [unfold is_storable; rewrite G4, Hty; reflexivity|]. exists p. split; [exact (G3 true)|reflexivity].
Qed.
Lemma back_rec g g1 comps z cs content pre c0 ty :
  D = comps_cp D0 -> fspath (from_path z) = Ok z -> places (from_path z) cs -> joined (single (D ++ comps ++ cs) c0) g1 g -> Held g1 (comps ++ removelast cs) c0 content -> sto_name E2 content = Some ty ->
  Back g comps false (ORec content (from_path z) pre None None) (typed n_record (PDict (rec_dict z ty pre))).
Proof.
  intros HD Hz Hpl Hj Hcon Hty. apply back_body. intros K j cx w o2 p2 w2 Hs Hok Hf Hh H.
  eapply (run_method E2 Hval) in H as (q & H & ->); [|discriminate|discriminate|discriminate|cbn [ser_method]; reflexivity].
  assert (Hld : loaded content) by (destruct Hcon as [(c & d & -> & _)|(Hd & Hst & _)]; intros tyy tt b cc Hx; [discriminate|subst content; discriminate Hst]).
  apply ser_rec_loaded in H as (dir & w0 & t' & w1 & out & we' & c' & _ & -> & H1 & H2 & -> & ->); [|assumption].
  assert (H1' : t' = from_path z /\ w1 = w).
  { unfold rec_target in H1. assert (Hc : is_complete (from_path z) = true) by (unfold from_path; destruct (path_split z) as [a b]; destruct (splitext b); reflexivity). rewrite Hc in H1. unfold ret in H1. injection H1 as <- <-. auto. }
  destruct H1' as [-> ->]. clear H1.
  apply ctx_write_gen in H2 as (p & local & nt & nm & w1 & H1 & H2 & H3 & H4 & H5). rewrite Hz in H1. injection H1 as <-.
  assert (Hcs : exists l0 n', cs = l0 ++ [n']) by (pose proof (places_clean _ _ Hpl) as [_ Hne]; destruct (exists_last Hne) as (l0 & y & Hy); eauto). destruct Hcs as (l0 & n' & ->).
  destruct (ctx_prepare_gave E2 j D0 Hcwd Hdir comps cx (from_path z) (l0 ++ [n']) None w local nt w1 Hok Hs Hpl Hun H2) as (pp & u & n2 & Hpn & Hg & Hsl & _ & Hn & Hok1 & Hpath).
  rewrite removelast_last in *. fold D in Hpath. rewrite H3 in Hn. injection Hn as ->. set (l := D ++ comps ++ l0 ++ [n']) in *.
  assert (Hgl : g l c0) by (apply Hj; left; split; reflexivity).
  assert (n2 = n') as ->.
  { destruct Hg as (m & touched & fs' & G1 & _ & _ & _ & _ & _ & _ & _ & _ & _ & G11).
    assert (Hx : comps ++ l0 ++ [n2] = comps ++ l0 ++ [n']).
    { apply G11. intros v s Hv Hr ->. apply (Hf l c0 Hgl). exists m, v, (comps ++ l0 ++ [n']). auto. }
    apply app_inv_head, app_inv_head in Hx. injection Hx as ->. reflexivity. }
  destruct (gave_claims E2 j D0 Hret pp w u _ _ w1 Hg Hok) as (C1 & C2 & C3 & C4). fold D in C1, C2. fold l in C1, C2.
  assert (Hw1 : w_uuid w1 = w_uuid w) by (destruct Hg as (m & touched & fs' & _ & _ & _ & _ & _ & -> & _); reflexivity).
  assert (Hnm : t_name (from_path z) = Ok n') by (destruct Hpl as (sd & nm & _ & Hnm & _ & _ & _ & Hx); apply app_inj_tail in Hx as [_ ->]; exact Hnm).
  rewrite (rename_same z n' Hnm) in H4. injection H4 as <-. rewrite Hz.
  destruct H5 as [(-> & lx & w3 & K1 & Hw)|(_ & _ & Hv & _)]; [|congruence].
  rewrite (Hpath w1 Hok1) in K1. injection K1 as <- <-. fold l in Hw.
  assert (Hat : file_at (w_fs w) l = Some c0) by (apply Hh; assumption).
  assert (Hmain : c' = content /\ Stay g j w w2).
  { destruct Hcon as [(c & d & -> & Hwr)|(Hdc & Hst & p1 & Hag & ->)].
    - unfold write_storable in Hw. rewrite Hwr in Hw. apply mbind_ok in Hw as (uu & w3 & Hw & He). unfold ret in He. injection He as <- <-. split; [reflexivity|].
      destruct (m_write_after E2 D0 E2 l c0 j w1 uu w3 Hw Hok1) as (W1 & W2 & W3 & W4). split; [assumption|]. split; [congruence|]. split.
      + intros q Hq. apply W3, C1 in Hq as [Hq| ->]; eauto.
      + intros q. rewrite W4. destruct (loc_eq_dec q l) as [->|]; [congruence|apply C3].
    - rewrite write_container in Hw by assumption. apply mbind_ok in Hw as (u1 & w3 & Hwa & Hw). apply mbind_ok in Hw as ([o1 q1] & w4 & Hwb & Hw).
      apply mbind_ok in Hw as (u2 & w5 & Hwc & Hw). unfold ret in Hw. injection Hw as <- <-.
      destruct (m_write_after E2 D0 E2 _ _ j _ _ _ Hwa Hok1) as (W1 & W2 & W3 & W4).
      assert (Hne : forall q x, g1 q x -> q <> l) by (intros q x Hx ->; exact (proj2 Hj l _ x (conj eq_refl eq_refl) Hx)).
      assert (Hf3 : idle g1 j w3).
      { intros q x Hx Hcl. apply W3, C1 in Hcl as [Hcl|Hcl]; [apply (Hf q x); [apply Hj; auto|assumption]|]. exact (Hne q x Hx Hcl). }
      assert (Hh3 : has g1 w3).
      { intros q x Hx. rewrite W4. destruct (loc_eq_dec q l) as [Hy|]; [destruct (Hne q x Hx Hy)|]. rewrite C3. apply Hh, Hj. auto. }
      destruct (Hag K j local w3 o1 q1 w4 Hsl W1 Hf3 Hh3 Hwb) as (-> & -> & A1 & A2 & A3 & A4). split; [reflexivity|].
      destruct (m_write_after E2 D0 E2 _ _ j _ _ _ Hwc A1) as (X1 & X2 & X3 & X4). split; [assumption|]. split; [congruence|]. split.
      + intros q Hq. apply X3, A3 in Hq as [Hq|[x Hq]]; [|right; exists x; apply Hj; auto]. apply W3, C1 in Hq as [Hq| ->]; eauto.
      + intros q. rewrite X4. destruct (loc_eq_dec q l) as [->|Hq]; [congruence|]. rewrite A4, W4. destruct (loc_eq_dec q l); [contradiction|apply C3]. }
  destruct Hmain as [-> Haf]. split; [reflexivity|]. split; [|exact Haf]. cbn [exc_entry app]. rewrite app_nil_r.
  assert (Hrt : rec_sto_type E2 content = Some ty) by (destruct content; try discriminate Hty; exact Hty).
  rewrite Hrt. reflexivity.
Qed.
Lemma back_waiting comps ty path cx0 pre g : fspath (from_path path) = Ok path ->
  Back g comps false (ORec (OUnloaded (Some ty) (from_path path) (join2 D0 (join_sep comps)) cx0) (from_path path) pre None None) (typed n_record (PDict (rec_dict path ty pre))).
Proof.
  intros Hfp. apply back_body. intros K j cx w o2 p2 w2 Hs Hok Hf Hh H.
  eapply (run_method E2 Hval) in H as (q & H & ->); [|discriminate|discriminate|discriminate|cbn [ser_method]; reflexivity].
  pose proof Hok as [(m & Hm & Hmd & _) _]. pose proof Hs as (Hi & Hsub & _).
  assert (Hcd : ctx_dir cx w = (Ok (join2 D0 (join_sep comps)), w)).
  { unfold ctx_dir, m_dir_of. rewrite mbind_run, Hi, Hm, Hmd, Hsub. reflexivity. }
  unfold ser_rec, rec_store in H. rewrite mbind_run, mbind_run, Hcd in H. cbn zeta in H.
  destruct (str_eq_dec (join2 D0 (join_sep comps)) (join2 D0 (join_sep comps))) as [_|Hx]; [|congruence]. cbn [negb andb] in H. unfold ret in H.
  injection H as <- <- <-. split; [reflexivity|]. split; [|apply stay_none; assumption]. rewrite Hfp. cbn [exc_entry app rec_sto_type]. rewrite app_nil_r. reflexivity.
Qed.
Lemma Rel_rec n (g g1 : files) comps z cs c0 ty pre : D = comps_cp D0 -> fspath (from_path z) = Ok z -> places (from_path z) cs -> joined (single (D ++ comps ++ cs) c0) g1 g ->
  ReadsR n g g1 comps (comps ++ removelast cs) c0 (from_path z) ty -> Rel (S n) g comps None (typed n_record (PDict (rec_dict z ty pre))) None.
Proof.
  intros HD Hz Hp Hj Hr K j cx w HK Hs Hok Hh. destruct K as [|K]; [lia|].
  assert (Hdr : ctx_dir cx w = (Ok (join2 D0 (join_sep comps)), w)).
  { destruct Hok as [(m & Hm & Hmd & _) _]. destruct Hs as (Hi & Hsub & _). unfold ctx_dir, m_dir_of. rewrite mbind_run, Hi, Hm, Hmd, Hsub. reflexivity. }
  destruct pre.
  - destruct (Hr K j cx w) as (o & w1 & H1 & H2 & H3 & H4); [lia|assumption|assumption|assumption|].
    pose proof (held_solid _ _ _ _ H3) as Hsol.
    exists (ORec o (from_path z) true None None), w1. split; [|split; [assumption|split; [|split; [reflexivity|split; [congruence|split; [reflexivity|discriminate]]]]]].
    + pose proof (de_preload_form E2 K cx w _ z (Some ty) Hdr) as Hd. unfold deserialize in Hd.
      change (preload_form z (Some ty)) with (typed n_record (PDict (rec_dict z ty true))) in Hd. rewrite Hd.
      cbn [rec_load]. rewrite mbind_run, H1. destruct o; try contradiction; reflexivity.
    + cbn [Backs]. eapply back_rec; eassumption.
  - exists (ORec (OUnloaded (Some ty) (from_path z) (join2 D0 (join_sep comps)) cx) (from_path z) false None None), w. split; [|split; [apply quiet_refl|split; [|split; [reflexivity|split; [congruence|split; [reflexivity|discriminate]]]]]].
    + pose proof (de_record_form E2 K cx w _ z (Some ty) Hdr) as Hd. unfold deserialize in Hd.
      change (record_form z (Some ty)) with (typed n_record (PDict (rec_dict z ty false))) in Hd. exact Hd.
    + cbn [Backs]. apply back_waiting. assumption.
Qed.
End Reload.

(** ** Saving *)
Section RSave.
Variables E E2 : senv.
Variable i : nat.
Variable D0 : str.
Hypothesis Hcwd : absolute (s_cwd E).
Hypothesis Hdir : absolute D0.
Hypothesis Hret : s_retouch E = $"auto" \/ s_retouch E = $"quit".
Hypothesis Hval : s_validate E = true.
Hypothesis Hreg : registered_classes E.
Hypothesis Huid : ordinary_uuids E.
Hypothesis Hfai : faithful_methods E.
Hypothesis Hsame : same_code E E2.
Hypothesis Hlim : s_limit E2 = None.
Hypothesis Hret2 : s_retouch E2 = $"auto" \/ s_retouch E2 = $"quit".
Hypothesis Hval2 : s_validate E2 = true.
Hypothesis Hwri : writes_determined E E2.
Hypothesis Hflo : s_float E2 = s_float E.
Let D := location (s_cwd E) D0.
Notation ok := (mnt_ok i D0).
Notation claimed := (RoundProof.claimed E i D0).
Notation grows := (RoundProof.grows E i D0).
Notation fresh := (RoundProof.fresh E i D0).
Notation R := (Rel E2 D0).
Let Hc2 := RoundProof.Hcwd2 E E2 Hcwd Hsame.
Let HDD : location (s_cwd E2) D0 = D := RoundProof.HD2 E E2 D0 Hsame.

Definition RSaved (n : nat) (comps : list str) (x : option dty) (w w' : world) (p : pser) (st : option str) : Prop :=
  grows w w' /\ ok w' /\ R n (fresh w w') comps x p st.

Lemma mapM_rsaved {A B} (f : A -> M B) (ps : B -> pser) (Q : B -> Prop) n comps l :
  (forall x w y w', In x l -> ok w -> f x w = (Ok y, w') -> RSaved n comps None w w' (ps y) None /\ Q y) ->
  forall w ys w', ok w -> mapM f l w = (Ok ys, w') ->
  grows w w' /\ ok w' /\ Forall Q ys /\ Parts (fun g p => R n g comps None p None) (fresh w w') (map ps ys).
Proof.
  induction l as [|x l IH]; intros Hf w ys w' Hok H.
  - injection H as <- <-. split; [apply grows_refl|]. split; [assumption|]. split; [constructor|]. constructor. apply fresh_none.
  - cbn [mapM] in H. apply mbind_ok in H as (y & w1 & H1 & H). apply mbind_ok in H as (ys0 & w2 & H2 & H). unfold ret in H. injection H as <- <-.
    destruct (Hf x w y w1 (or_introl eq_refl) Hok H1) as [(S1 & S2 & S4) Hq].
    destruct (IH (fun a w y w' Ha => Hf a w y w' (or_intror Ha)) w1 ys0 w2 S2 H2) as (G1 & G2 & G4 & G5).
    split; [eapply grows_trans; eassumption|]. split; [assumption|]. split; [constructor; assumption|].
    cbn [map]. econstructor; [exact S4|exact G5|apply fresh_joined; assumption].
Qed.

Section RStep.
Variable n : nat.
Notation F := (depth E n).
Hypothesis IH : forall o co comps cx w o' p w', built E o -> recorded E o -> (co = true -> direct o) -> sctx i comps cx -> ok w ->
  f_ser F (Some cx) co o w = (Ok (o', p), w') -> RSaved n comps (if co then dty_of o else None) w w' p (sto_name E2 o).

Lemma rec_rsaved comps cx content t pre w o' q w' : built E (ORec content t pre None None) -> recorded E content -> sctx i comps cx -> ok w ->
  ser_rec E F (Some cx) content t pre None None w = (Ok (o', q), w') -> RSaved (S n) comps None w w' (typed n_record q) None.
Proof.
  intros Hb Hrc Hs Hok H. inversion Hb as [| | | | | | |content0 t0 pre0 Hc Ho]; subst.
  assert (Hld : loaded content) by (intros ty tt b c ->; inversion Hc).
  apply ser_rec_loaded in H as (dir & w0 & t' & w1 & out & we' & c' & _ & -> & H1 & H2 & -> & ->); [|assumption].
  assert (Hwr : (exists c d, content = OLeaf c d) \/ (direct content /\ is_storable E content = true)).
  { pose proof H2 as H3. apply ctx_write_gen in H3 as (p & local & nt & nm & w2 & _ & _ & _ & _ & [(_ & l & w3 & _ & Hw)|(_ & _ & Hv & _)]); [|congruence].
    unfold write_storable in Hw. destruct content; try discriminate Hw; try (left; eauto; fail);
      (right; split; [discriminate|]; destruct (is_storable E _); [reflexivity|discriminate]). }
  assert (Hwu : (exists c d, content = OLeaf c d) \/ is_storable E content = true) by tauto.
  destruct (rec_target_places E content t w t' w1 Ho (built_usual E content Hc Hwu) H1) as [cs Hp].
  apply rec_target_still in H1 as (ku & -> & _). set (w1 := mkWorld (w_fs w) (w_mounts w) (w_inputs w) ku (w_log w)) in *.
  assert (Hok1 : ok w1) by exact Hok.
  destruct (ctx_write_inv E i D0 Hcwd Hdir (Hun E Hret) F cx comps t' cs content w1 out we' c' w' Hok1 Hs Hp H2)
    as (pp & u & n' & w2 & local & Hn' & Hg & Hok2 & Hpo & (z & Z1 & Z2 & Z3) & Hsl & [(-> & Hw)|(_ & _ & Hv & _)]); [|congruence].
  destruct (gave_claims E i D0 Hret pp w1 u _ _ w2 Hg Hok1) as (C1 & C2 & C3 & C4).
  assert (Hlog2 : w_log w2 = EvPrepare i pp :: w_log w).
  { destruct Hg as (m & touched & fs' & _ & _ & _ & _ & _ & -> & _). reflexivity. }
  fold D in Hw, C1, C2, C4. set (l := D ++ comps ++ removelast cs ++ [n']) in *.
  assert (Cw : forall q, claimed w1 q <-> claimed w q) by (intros q; apply claimed_mounts; reflexivity).
  assert (Hout : fspath out = Ok z) by exact Z1. rewrite Hout.
  assert (Hmain : exists ty c0 g1, sto_name E content = Some ty /\ is_storable E content = true /\ grows w w' /\ ok w' /\
     joined (single l c0) g1 (fresh w w') /\ ReadsR E2 D0 n (fresh w w') g1 comps (comps ++ removelast (removelast cs ++ [n'])) c0 out ty).
  { destruct Hwr as [(c & d & ->)|[Hdc Hst]].
    - destruct (leaf_storable E Hreg c d Hc) as (ty & T1 & T2 & T3). exists ty.
      unfold write_storable in Hw. destruct (s_write E c (List.length (w_log w2)) d) as [left e] eqn:Ew.
      apply mbind_ok in Hw as (uu & w3 & Hw & He). destruct e as [e|]; [discriminate|]. unfold ret in He. injection He as <- <-.
      destruct (Hfai c _ d left Ew) as (x & -> & Hrd). pose proof (m_write_logged E _ _ _ _ _ Hw) as Hlog. apply m_write_ok in Hw as (W1 & W2 & W3).
      assert (Cl : forall q, claimed w3 q <-> claimed w q \/ q = l).
      { intros q. rewrite (claimed_mounts E i D0 w2 w3 q W1), C1, Cw. reflexivity. }
      assert (Hnew : ~ claimed w l) by (intros Hx; apply C2, Cw; assumption).
      assert (Hat : file_at (w_fs w3) l = Some x) by (rewrite W2; destruct (loc_eq_dec l l); congruence).
      exists x, (fun _ _ => False). split; [assumption|]. split; [assumption|].
      split; [|split; [|split]].
      + split.
        * intros q Hq. split; [apply Cl; auto|]. rewrite W2. destruct (loc_eq_dec q l) as [->|]; [contradiction|]. apply C3.
        * exists [EvWrite l; EvPrepare i pp]. split; [rewrite Hlog, Hlog2; reflexivity|]. intros q Hq. apply Cl in Hq as [Hq| ->]; [auto|right; left; reflexivity].
      + destruct Hok2 as [Ha Hb2]. split; [|auto]. rewrite W1. exact Ha.
      + split; [|intros q y y' _ []]. intros q y. split.
        * intros (F1 & F2 & F3). apply Cl in F1 as [F1| ->]; [contradiction|]. left. split; congruence.
        * intros [[-> ->]|[]]. repeat split; [apply Cl; auto|assumption|assumption].
      + assert (Hk2 : k_sto (s_class E2 c) = Some ty) by (pose proof Hsame as (-> & _); exact T1).
        eapply (ReadsR_leaf E2 D0 Hc2 Hdir Hlim n _ _ comps _ out (removelast cs ++ [n']) ty c x d).
        * rewrite HDD. exact C4.
        * assumption.
        * rewrite HDD. repeat split; [apply Cl; auto|assumption|assumption].
        * rewrite (sto_ty_same E E2 Hsame). assumption.
        * assumption.
        * intros k. pose proof Hsame as (_ & _ & _ & -> & _). apply Hrd.
        * intros k. rewrite (Hwri c k (List.length (w_log w2)) d). exact Ew.
    - destruct (container_storable E Hreg content Hc Hdc Hst) as (ty & dt & T1 & T2 & T3).
      rewrite write_container in Hw by assumption. apply mbind_ok in Hw as (u1 & w3 & Hw1 & Hw). apply mbind_ok in Hw as ([o1 p1] & w4 & Hw2 & Hw).
      apply mbind_ok in Hw as (u2 & w5 & Hw3 & Hw). unfold ret in Hw. injection Hw as <- <-.
      pose proof (m_write_logged E _ _ _ _ _ Hw1) as Hlog3. pose proof (m_write_logged E _ _ _ _ _ Hw3) as Hlog5.
      apply m_write_ok in Hw1 as (W1 & W2 & W3). apply m_write_ok in Hw3 as (X1 & X2 & X3). cbn [snd] in X2.
      assert (Hok3 : ok w3). { destruct Hok2 as [Ha Hb2]. split; [|auto]. rewrite W1. exact Ha. }
      destruct (ser_saved E E2 i D0 Hcwd Hdir Hret Hval Hreg Huid Hfai Hsame Hlim n content true _ local w3 _ _ w4 Hc (fun _ => Hdc) Hsl Hok3 Hw2) as (_ & _ & R3 & _).
      destruct (IH content true _ local w3 _ _ w4 Hc Hrc (fun _ => Hdc) Hsl Hok3 Hw2) as ([S1 Sf] & S2 & S6).
      cbn iota in S6. rewrite T3 in S6.
      assert (Cl : forall q, claimed w3 q <-> claimed w q \/ q = l).
      { intros q. rewrite (claimed_mounts E i D0 w2 w3 q W1), C1, Cw. reflexivity. }
      assert (Cl5 : forall q, claimed w5 q <-> claimed w4 q) by (intros q; apply claimed_mounts; exact X1).
      assert (Hnew : ~ claimed w l) by (intros Hx; apply C2, Cw; assumption).
      set (c0 := Json (to_json (s_float E) p1)) in *.
      assert (Hat : file_at (w_fs w5) l = Some c0) by (rewrite X2; destruct (loc_eq_dec l l); congruence).
      assert (H4l : claimed w4 l) by (apply S1, Cl; auto).
      assert (Hsub : forall q y, fresh w3 w4 q y -> fresh w w5 q y).
      { intros q y (B1 & B2 & B3). assert (Hne : q <> l) by (intros ->; apply B2, Cl; auto). repeat split.
        - apply Cl5. assumption.
        - intros Hx. apply B2, Cl. auto.
        - rewrite X2. destruct (loc_eq_dec q l); [contradiction|assumption]. }
      exists ty, c0, (fresh w3 w4). split; [assumption|]. split; [assumption|].
      split; [|split; [|split]].
      + split.
        * intros q Hq. assert (Hne : q <> l) by (intros ->; contradiction). destruct (S1 q) as [A1 A2]; [apply Cl; auto|]. split; [apply Cl5; assumption|].
          rewrite X2. destruct (loc_eq_dec q l) as [|]; [contradiction|]. rewrite A2, W2. destruct (loc_eq_dec q l) as [|]; [contradiction|]. apply C3.
        * destruct Sf as (ev & L1 & L2). exists (EvWrite l :: ev ++ [EvWrite l; EvPrepare i pp]). split; [rewrite Hlog5, L1, Hlog3, Hlog2; cbn [app]; rewrite <- app_assoc; reflexivity|].
          intros q Hq. apply Cl5 in Hq. destruct (L2 q Hq) as [Hq'|Hq']; [apply Cl in Hq' as [Hq'| ->]; [auto|right; left; reflexivity]|].
          right. right. apply in_or_app. auto.
      + destruct S2 as [Ha Hb2]. split; [|auto]. rewrite X1. exact Ha.
      + split.
        * intros q y. split; [|intros [[-> ->]|Hx]; [repeat split; [apply Cl5; assumption|assumption|assumption]|apply Hsub; assumption]].
          intros (F1 & F2 & F3). destruct (loc_eq_dec q l) as [->|Hne]; [left; split; congruence|]. right. repeat split.
          -- apply Cl5. assumption.
          -- intros Hz. apply Cl in Hz as [Hz|Hz]; contradiction.
          -- rewrite X2 in F3. destruct (loc_eq_dec q l); [contradiction|assumption].
        * intros q y y' [-> _] (_ & B2 & _). apply B2, Cl. auto.
      + unfold c0. rewrite <- Hflo. eapply (ReadsR_obj E2 D0 Hc2 Hdir Hlim n _ _ comps out (removelast cs ++ [n']) ty dt p1).
        * rewrite HDD. exact C4.
        * assumption.
        * rewrite HDD, Hflo. repeat split; [apply Cl5; assumption|assumption|assumption].
        * assumption.
        * rewrite (sto_ty_same E E2 Hsame). assumption.
        * assumption.
        * rewrite removelast_last. rewrite (sto_name_same E E2 Hsame), T1 in S6. exact S6. }
  destruct Hmain as (ty & c0 & g1 & T1 & T2 & T3 & T4 & T6 & T7).
  assert (Hty : rec_sto_type E content = Some ty) by (destruct content; try discriminate T2; exact T1).
  assert (Hq : [(key "target", PAtom (AStr z)); (key "sto_type", opt_str (rec_sto_type E content))] ++ (if pre then [(key "preload", PAtom (ABool true))] else []) ++
              match exc_entry "write" None ++ exc_entry "read" None with [] => [] | l => [(key "exceptions", PDict l)] end = rec_dict z ty pre).
  { rewrite Hty. unfold rec_dict. cbn [exc_entry app opt_str]. rewrite app_nil_r. reflexivity. }
  rewrite Hq. split; [assumption|]. split; [assumption|]. subst out.
  eapply (Rel_rec E2 D0 Hc2 Hdir Hret2 Hval2 n _ g1 comps z (removelast cs ++ [n']) c0); [rewrite HDD; exact C4|assumption|assumption| |exact T7].
  rewrite HDD. exact T6.
Qed.
Lemma not_storable2 o : built E o -> is_storable E o = false -> sto_name E2 o = None.
Proof.
  intros Hb H. rewrite (sto_name_same E E2 Hsame). inversion Hb as [a|l Hi|d Hi Hn|c d j ext ty Hk Ht|c fs fds Hk Hn Hf|q s Hi|q s Hi Hn|content t pre Hc Ho]; subst o; try reflexivity.
  - destruct (leaf_storable E Hreg c d Hb) as (ty1 & _ & _ & Hx). congruence.
  - unfold is_storable in H. destruct (sto_name E (OModel c fs [])) as [ty|] eqn:En; [|reflexivity]. destruct Hreg as [_ Hr]. cbn [sto_name] in En. specialize (Hr c ty En). rewrite Hk in Hr. rewrite Hr in H. discriminate.
  - unfold is_storable in H. cbn [sto_name] in *. destruct (q_sto q); [|reflexivity]. destruct (q_runs q); discriminate.
  - unfold is_storable in H. cbn [sto_name] in *. destruct (p_sto q); [|reflexivity]. discriminate.
Qed.
Lemma item_rsaved comps cx o w y w' : built E o -> recorded E o -> is_storable E o = false -> sctx i comps cx -> ok w -> ser_item E F (Some cx) o w = (Ok y, w') ->
  RSaved n comps None w w' (item_ps y) None /\ snd y <> None.
Proof.
  intros Hb Hrc Hst Hs Hok H.
  assert (H' : (x <- f_ser F (Some cx) false o;; ret (fst x, Some (snd x))) w = (Ok y, w')).
  { unfold ser_item in H. destruct o; try exact H. inversion Hb; subst. cbn [rec_exists] in H. rewrite orb_true_r in H. exact H. }
  apply mbind_ok in H' as ([o1 p1] & w1 & H1 & H2). unfold ret in H2. injection H2 as <- <-. cbn [snd fst]. split; [|discriminate].
  pose proof (not_storable2 o Hb Hst) as Hst2. rewrite <- Hst2. apply (IH o false comps cx w o1 p1 w1 Hb Hrc); [discriminate|assumption|assumption|exact H1].
Qed.
Lemma seq_rsaved comps cx q s w o' p w' : built E (OSeq q s []) -> recorded E (OSeq q s []) -> sctx i comps cx -> ok w ->
  ser_seq E F (Some cx) q s [] w = (Ok (o', p), w') -> RSaved (S n) comps (dty_of (OSeq q s [])) w w' p (sto_name E2 (OSeq q s [])) /\ exists e, p = PDict e.
Proof.
  intros Hb Hrc Hs Hok H. inversion Hb as [| | | | |q0 s0 Hi| |]; subst. inversion Hrc as [| | | | |q0 s0 u0 Hri| |]; subst. unfold ser_seq in H.
  apply mbind_ok in H as (r1 & w1 & H1 & H). rewrite rm_none in H1. injection H1 as _ <-.
  apply mbind_ok in H as (ys & w2 & H2 & H).
  destruct (mapM_rsaved (ser_item E F (Some cx)) item_ps (fun y => snd y <> None) n comps s) with (w := w) (ys := ys) (w' := w2)
    as (G1 & G2 & G4 & G5); [|assumption|assumption|].
  { intros x w0 y w1 Hx Hok0 Hy. destruct (Hri x Hx). eapply (item_rsaved comps cx x w0 y w1 (Hi x Hx)); eassumption. }
  destruct (kept_items ys G4) as [K1 K2]. rewrite K1, K2 in H.
  apply mbind_ok in H as (r2 & w3 & H3 & H). rewrite rm_none in H3. injection H3 as _ <-. unfold ret in H. injection H as _ <- <-.
  split; [|eexists; reflexivity].
  change (RSaved (S n) comps (dty_of (OSeq q [] [])) w w2 (PDict (seq_dict q (map item_ps ys))) (sto_name E2 (OSeq q [] []))).
  split; [assumption|]. split; [assumption|]. apply (Rel_seq E2 D0 Hdir Hval2); assumption.
Qed.
Lemma map_rsaved comps cx q s w o' p w' : built E (OMap q s []) -> recorded E (OMap q s []) -> sctx i comps cx -> ok w ->
  ser_map E F (Some cx) q s [] w = (Ok (o', p), w') -> RSaved (S n) comps (dty_of (OMap q s [])) w w' p (sto_name E2 (OMap q s [])) /\ exists e, p = PDict e.
Proof.
  intros Hb Hrc Hs Hok H. inversion Hb as [| | | | | |q0 s0 Hi Hnd|]; subst. inversion Hrc as [| | | | | |q0 s0 u0 Hri|]; subst. unfold ser_map in H.
  apply mbind_ok in H as (r1 & w1 & H1 & H). rewrite rm_none' in H1. injection H1 as _ <-.
  apply mbind_ok in H as (xs & w2 & H2 & H). apply mapM_keyed_ok in H2 as (ys & H2 & -> & Hlen).
  destruct (mapM_rsaved (ser_item E F (Some cx)) item_ps (fun y => snd y <> None) n comps (map snd s)) with (w := w) (ys := ys) (w' := w2)
    as (G1 & G2 & G4 & G5); [|assumption|assumption|].
  { intros x w0 y w1 Hx Hok0 Hy. apply in_map_iff in Hx as ([k v] & <- & Hx). destruct (Hri k v Hx). eapply (item_rsaved comps cx v w0 y w1 (Hi k v Hx)); eassumption. }
  destruct (kept_items ys G4) as [K1 K2]. rewrite combine_snd, K1 in H by assumption.
  apply mbind_ok in H as (r2 & w3 & H3 & H). rewrite rm_none in H3. injection H3 as _ <-. unfold ret in H. injection H as _ <- <-.
  split; [|eexists; reflexivity]. rewrite keyed_forms by assumption.
  change (RSaved (S n) comps (dty_of (OMap q [] [])) w w2 (PDict (map_dict q (map (fun kv => (AStr (fst kv), snd kv)) (combine (map fst s) (map item_ps ys))))) (sto_name E2 (OMap q [] []))).
  assert (Hl2 : List.length (map fst s) = List.length (map item_ps ys)) by (rewrite (map_length item_ps); assumption).
  split; [assumption|]. split; [assumption|]. apply (Rel_map E2 D0 Hdir Hval2); assumption.
Qed.
Lemma plain_rsaved comps cx o w y w' : built E o -> recorded E o -> sctx i comps cx -> ok w -> ser_plain_item E F (Some cx) o w = (Ok y, w') ->
  RSaved n comps None w w' (snd y) None.
Proof.
  intros Hb Hrc Hs Hok H. unfold ser_plain_item in H. destruct (is_storable E o) eqn:Est.
  - apply mbind_ok in H as ([o1 p1] & w1 & H1 & H2). unfold ret in H2. injection H2 as <- <-. cbn [snd].
    assert (Hbr : built E (fresh_record o)) by (constructor; [assumption|apply auto_ordinary; assumption]).
    apply (IH (fresh_record o) false comps cx w o1 p1 w1 Hbr); [constructor; assumption|discriminate|assumption|assumption|exact H1].
  - destruct y as [o1 p1]. pose proof (not_storable2 o Hb Est) as Hst2. rewrite <- Hst2. apply (IH o false comps cx w o1 p1 w' Hb Hrc); [discriminate|assumption|assumption|exact H].
Qed.
Lemma list_rsaved comps cx l w o' p w' : built E (OList l) -> recorded E (OList l) -> sctx i comps cx -> ok w ->
  ser_list E F (Some cx) l w = (Ok (o', p), w') -> RSaved (S n) comps None w w' p None.
Proof.
  intros Hb Hrc Hs Hok H. inversion Hb as [|l0 Hi| | | | | |]; subst. inversion Hrc as [|l0 Hri| | | | | |]; subst.
  unfold ser_list in H. apply mbind_ok in H as (ys & w1 & H1 & H).
  destruct (mapM_rsaved (ser_plain_item E F (Some cx)) snd (fun _ => True) n comps l) with (w := w) (ys := ys) (w' := w1)
    as (G1 & G2 & _ & G5); [intros x w0 y w2 Hx Hok0 Hy; split; [eapply (plain_rsaved comps cx x w0 y w2 (Hi x Hx) (Hri x Hx)); assumption|exact I]|assumption|assumption|].
  cbn zeta in H. unfold ret in H. injection H as _ <- <-.
  split; [assumption|]. split; [assumption|]. destruct (existsb (is_storable E) l).
  - apply (Rel_typed E2 D0 n _ comps (DSeq false false)); [reflexivity|].
    apply (Rel_seq E2 D0 Hdir Hval2 n _ comps (mkSeq false [] false None) (map snd ys)). assumption.
  - apply (Rel_list E2 D0 Hdir); assumption.
Qed.
Lemma dict_rsaved comps cx d w o' p w' : built E (ODict d) -> recorded E (ODict d) -> sctx i comps cx -> ok w ->
  ser_dict E F (Some cx) d w = (Ok (o', p), w') -> RSaved (S n) comps None w w' p None.
Proof.
  intros Hb Hrc Hs Hok H. inversion Hb as [| |d0 Hi Hnd| | | | |]; subst. inversion Hrc as [| |d0 Hri| | | | |]; subst.
  unfold ser_dict in H. apply mbind_ok in H as (xs & w1 & H1 & H). apply mapM_keyed_ok in H1 as (ys & H1 & -> & Hlen).
  destruct (mapM_rsaved (ser_plain_item E F (Some cx)) snd (fun _ => True) n comps (map snd d)) with (w := w) (ys := ys) (w' := w1)
    as (G1 & G2 & _ & G5); [|assumption|assumption|].
  { intros x w0 y w2 Hx Hok0 Hy. apply in_map_iff in Hx as ([k v] & <- & Hx). split; [|exact I]. destruct (Hi k v Hx) as [_ Hiv]. eapply (plain_rsaved comps cx v w0 y w2 Hiv (Hri k v Hx)); assumption. }
  cbn zeta in H. unfold ret in H. injection H as _ <- <-.
  assert (Hmap : map (fun kx : atom * (obj * pser) => (fst kx, snd (snd kx))) (combine (map fst d) ys) = combine (map fst d) (map snd ys)).
  { clear - Hlen. revert ys Hlen. induction (map fst d) as [|k ks IHk]; intros [|y ys] Hlen; try reflexivity. cbn. f_equal. apply IHk. cbn in Hlen. congruence. }
  rewrite Hmap.
  assert (Hks : exists ks, map fst d = map AStr ks /\ NoDup ks /\ ~ In SER_TYPE ks).
  { clear - Hi Hnd. induction d as [|[k v] d IHd]; [exists []; split; [reflexivity|split; [constructor|intros []]]|].
    cbn [map fst] in *. inversion Hnd as [|? ? N1 N2]; subst.
    destruct IHd as (ks & K1 & K2 & K3); [intros k' x' Hx'; apply Hi; right; assumption|assumption|].
    destruct (Hi k v (or_introl eq_refl)) as [(s & -> & Hs) _]. exists (s :: ks). cbn [map]. split; [congruence|].
    split; [|intros [Hx|Hx]; [congruence|auto]]. constructor; [|assumption]. intros Hx. apply N1. rewrite K1. apply in_map. assumption. }
  destruct Hks as (ks & K1 & K2 & K3).
  assert (Hl2 : List.length (map fst d) = List.length (map snd ys)) by (rewrite (map_length snd ys); assumption).
  assert (Hl3 : List.length ks = List.length (map snd ys)) by (rewrite K1, map_length in Hl2; assumption).
  assert (Hcomb : forall A (l : list A), combine (map AStr ks) l = map (fun kv => (AStr (fst kv), snd kv)) (combine ks l)).
  { clear. induction ks as [|k ks IHk]; intros A [|x l]; try reflexivity. cbn. f_equal. apply IHk. }
  split; [assumption|]. split; [assumption|]. rewrite K1 in *. destruct (existsb (is_storable E) (map snd d)).
  - rewrite Hcomb. apply (Rel_typed E2 D0 n _ comps (DMap false)); [reflexivity|].
    apply (Rel_map E2 D0 Hdir Hval2 n _ comps (mkMap false [] false false false) ks (map snd ys) Hl3 K2 G5).
  - apply (Rel_dict E2 D0 Hdir); [assumption| |assumption].
    intros Hx. apply in_map_iff in Hx as (s & Hx & Hy). injection Hx as ->. contradiction.
Qed.
Lemma toldr_other g comps k p d f : AStr (mf_name f) <> k -> toldr E2 D0 n comps d g f -> toldr E2 D0 n comps ((k, p) :: d) g f.
Proof.
  intros Hk Ht. assert (He : assoc_a (AStr (mf_name f)) ((k, p) :: d) = assoc_a (AStr (mf_name f)) d).
  { cbn. destruct (atom_eq_dec k (AStr (mf_name f))); [congruence|reflexivity]. }
  unfold toldr. rewrite He. exact Ht.
Qed.
Notation served := (filter (fun f => negb (mf_noser f))).
Lemma fields_rsaved comps cx fds : sctx i comps cx -> NoDup (map mf_name fds) -> forall fs w fs' d w',
  (forall f v, In f fds -> mf_noser f = false -> assoc (mf_name f) fs = Some v ->
     built E v /\ (v = OAtom ANone -> mf_default f = None \/ mf_default f = Some (OAtom ANone))) ->
  (forall f v, In f fds -> mf_noser f = false -> assoc (mf_name f) fs = Some v -> recorded E v /\ (mf_wrap f <> None -> is_storable E v = false)) ->
  ok w -> ser_fields_m F (Some cx) fds fs w = (Ok (fs', d), w') ->
  grows w w' /\ ok w' /\
  (forall k p, In (k, p) d -> exists f, In f fds /\ mf_noser f = false /\ k = AStr (mf_name f)) /\
  d = flat_map (entry d) (served fds) /\
  Parts (toldr E2 D0 n comps d) (fresh w w') (served fds).
Proof.
  intros Hs. induction fds as [|f fds IHf]; intros Hnd fs w fs' d w' Hb Hrc Hok H.
  - injection H as _ <- <-. split; [apply grows_refl|]. split; [assumption|]. split; [intros k p []|]. split; [reflexivity|]. constructor. apply fresh_none.
  - cbn [map] in Hnd. inversion Hnd as [|? ? N1 N2]; subst. cbn [ser_fields_m] in H. cbn [filter]. destruct (mf_noser f) eqn:En; cbn [negb].
    + destruct (IHf N2 fs w fs' d w') as (G1 & G2 & G4 & Gd & G5); [intros f0 v Hf0; apply Hb; right; assumption|intros f0 v Hf0; apply Hrc; right; assumption|assumption|assumption|].
      split; [assumption|]. split; [assumption|]. split; [|split; assumption]. intros k p Hp. destruct (G4 k p Hp) as (f0 & X1 & X2 & X3). exists f0. split; [right; assumption|auto].
    + destruct (assoc (mf_name f) fs) as [v|] eqn:Ea; [|discriminate].
      destruct (Hb f v (or_introl eq_refl) En Ea) as [Hv Hdef]. destruct (Hrc f v (or_introl eq_refl) En Ea) as [Hrv Hwr].
      assert (Hcase : v = OAtom ANone \/ (v <> OAtom ANone /\
         (x <- f_ser F (Some cx) false v;; y <- ser_fields_m F (Some cx) fds (assoc_set (mf_name f) (fst x) fs);; ret (fst y, (AStr (mf_name f), snd x) :: snd y)) w = (Ok (fs', d), w'))).
      { destruct v as [[| | | |]|l|dd|c x|c x u|q x u|q x u|? ? ? ? ?|? ? ? ?|?|?]; try (right; split; [discriminate|exact H]). left. reflexivity. }
      destruct Hcase as [-> | [Hnn H']].
      * destruct (IHf N2 fs w fs' d w') as (G1 & G2 & G4 & Gd & G5); [intros f0 v Hf0; apply Hb; right; assumption|intros f0 v Hf0; apply Hrc; right; assumption|assumption|assumption|].
        assert (Hno : assoc_a (AStr (mf_name f)) d = None).
        { apply RoundProof.assoc_a_none. intros p Hp. destruct (G4 _ p Hp) as (f0 & X1 & _ & X3). injection X3 as X3. apply N1. rewrite X3. apply in_map. assumption. }
        split; [assumption|]. split; [assumption|]. split; [intros k p Hp; destruct (G4 k p Hp) as (f0 & X1 & X2 & X3); exists f0; split; [right; assumption|auto]|].
        split; [cbn [flat_map]; unfold entry at 1; rewrite Hno; exact Gd|].
        eapply (parts_cons _ (fun _ _ => False) (fresh w w')); [|exact G5|].
        -- left. split; [exact Hno|split; [intros l c []|auto]].
        -- split; [intros l c; tauto|intros l c c' []].
      * apply mbind_ok in H' as ([o1 p1] & w1 & H1 & H'). apply mbind_ok in H' as ([fs1 d1] & w2 & H2 & H'). unfold ret in H'. cbn [fst snd] in *. injection H' as <- <- <-.
        destruct (ser_saved E E2 i D0 Hcwd Hdir Hret Hval Hreg Huid Hfai Hsame Hlim n v false comps cx w o1 p1 w1 Hv) as (_ & _ & _ & R4 & _); [discriminate|assumption|assumption|exact H1|].
        destruct (IH v false comps cx w o1 p1 w1 Hv Hrv) as (S1 & S2 & S4); [discriminate|assumption|assumption|exact H1|].
        assert (Hoth : forall f0, In f0 fds -> assoc (mf_name f0) (assoc_set (mf_name f) o1 fs) = assoc (mf_name f0) fs).
        { intros f0 Hf0. apply assoc_set_other. intros Hx. apply N1. rewrite Hx. apply in_map. assumption. }
        destruct (IHf N2 (assoc_set (mf_name f) o1 fs) w1 fs1 d1 w2) as (G1 & G2 & G4 & Gd & G5).
        { intros f0 v0 Hf0 Hno Hx. rewrite Hoth in Hx by assumption. apply Hb; [right; assumption|assumption|assumption]. }
        { intros f0 v0 Hf0 Hno Hx. rewrite Hoth in Hx by assumption. apply Hrc; [right; assumption|assumption|assumption]. }
        { assumption. } { assumption. }
        split; [eapply grows_trans; eassumption|]. split; [assumption|]. split.
        { intros k p [Hp|Hp].
          - injection Hp as <- <-. exists f. split; [left; reflexivity|auto].
          - destruct (G4 k p Hp) as (f0 & X1 & X2 & X3). exists f0. split; [right; assumption|auto]. }
        split.
        { cbn [flat_map]. unfold entry at 1. cbn [assoc_a]. destruct (atom_eq_dec (AStr (mf_name f)) (AStr (mf_name f))) as [_|]; [|congruence]. cbn [app]. f_equal. rewrite Gd at 1.
          clear - N1. induction fds as [|f0 r IHr]; [reflexivity|]. cbn [map] in N1. cbn [filter]. destruct (mf_noser f0); cbn [negb]; [apply IHr; intros Hx; apply N1; right; assumption|].
          cbn [flat_map]. f_equal; [|apply IHr; intros Hx; apply N1; right; assumption]. unfold entry. cbn [assoc_a].
          destruct (atom_eq_dec (AStr (mf_name f)) (AStr (mf_name f0))) as [Hx|]; [|reflexivity]. exfalso. apply N1. left. congruence. }
        econstructor; [| |apply (fresh_joined E i D0 w w1 w2); assumption].
        -- right. exists p1, (sto_name E2 v). split; [cbn; destruct (atom_eq_dec (AStr (mf_name f)) (AStr (mf_name f))); congruence|]. split; [apply R4; assumption|].
           split; [exact S4|]. destruct (mf_wrap f) as [x|]; [left; apply not_storable2; [assumption|apply Hwr; discriminate]|right; reflexivity].
        -- eapply Parts_impl; [|exact G5]. intros g f0 Hf0 Ht0. apply filter_In in Hf0 as [Hf0 _].
           apply toldr_other; [intros Hx; injection Hx as Hx; apply N1; rewrite <- Hx; apply in_map; assumption|exact Ht0].
Qed.
Lemma model_rsaved comps cx c fds fs nm w o' p w' : k_kind (s_class E c) = SModel fds -> k_ser (s_class E c) = Some nm -> ser_ty E nm = Some (DModel c) -> built E (OModel c fs []) -> recorded E (OModel c fs []) -> sctx i comps cx -> ok w ->
  ser_model E F (Some cx) c fds fs [] w = (Ok (o', p), w') -> RSaved (S n) comps (Some (DModel c)) w w' p (sto_name E2 (OModel c fs [])) /\ exists e, p = PDict e.
Proof.
  intros Hk Hnm Hty Hb Hrc Hs Hok H. inversion Hb as [| | | |c0 fs0 fds0 Hk' Hnd Hf| | |]; subst. rewrite Hk in Hk'. injection Hk' as <-.
  inversion Hrc as [| | | |c0 fs0 u0 fds0 Hk' Hrf| | |]; subst. rewrite Hk in Hk'. injection Hk' as <-.
  unfold ser_model in H. apply mbind_ok in H as (u & w1 & H1 & H). rewrite rm_none in H1. injection H1 as _ <-.
  apply mbind_ok in H as ([fs' d] & w2 & H2 & H). unfold ret in H. cbn [fst snd] in H. injection H as _ <- <-.
  destruct (fields_rsaved comps cx fds Hs Hnd fs w fs' d w2 Hf Hrf Hok H2) as (G1 & G2 & G4 & Gd & G5).
  split; [|eexists; reflexivity]. split; [assumption|]. split; [assumption|].
  change (sto_name E2 (OModel c fs [])) with (sto_name E2 (OModel c [] [])).
  apply (Rel_model E2 D0 Hdir Hval2 n _ comps c fds d nm).
  - pose proof Hsame as (-> & _). assumption.
  - pose proof Hsame as (-> & _). assumption.
  - rewrite (ser_ty_same E E2 Hsame). assumption.
  - assumption.
  - intros f Hf0 Hno. apply RoundProof.assoc_a_none. intros p Hp. destruct (G4 _ p Hp) as (f0 & X1 & X2 & X3). injection X3 as X3.
    assert (f = f0). { clear - Hnd Hf0 X1 X3. induction fds as [|g r IHr]; [contradiction|]. cbn in Hnd. inversion Hnd as [|? ? N1 N2]; subst.
      destruct Hf0 as [<-|Hf0], X1 as [<-|X1]; auto; exfalso; apply N1; [rewrite X3|rewrite <- X3]; apply in_map; assumption. }
    congruence.
  - assumption.
  - assumption.
Qed.
Lemma step_rsaved o co comps cx w o' p w' : built E o -> recorded E o -> (co = true -> direct o) -> sctx i comps cx -> ok w ->
  ser_body E F (Some cx) co o w = (Ok (o', p), w') -> RSaved (S n) comps (if co then dty_of o else None) w w' p (sto_name E2 o).
Proof.
  intros Hb Hrc Hd Hs Hok H.
  assert (Hfin : forall nm q d, namer E2 d = nm -> ser_ty E2 nm = Some d -> dty_of o = Some d -> (exists e, q = PDict e) -> RSaved (S n) comps (Some d) w w' q (sto_name E2 o) ->
    RSaved (S n) comps (if co then dty_of o else None) w w' (emit co (nm, q)) (sto_name E2 o)).
  { intros nm q d <- Hty Hdt [e ->] HS. destruct co; [rewrite Hdt; exact HS|]. destruct HS as (S1 & S2 & S4).
    cbn [emit fst snd]. split; [assumption|]. split; [assumption|]. apply Rel_typed; assumption. }
  inversion Hb as [a|l Hi|d Hi Hn|c d j ext ty Hk Ht|c fs fds Hk Hn Hf|q s Hi|q s Hi Hn|content t pre Hc Ho]; subst o.
  - cbn in H. injection H as <- <- <-. destruct co; [exfalso; apply Hd; reflexivity|]. split; [apply grows_refl|]. split; [assumption|].
    apply Rel_atom.
  - destruct co; [exfalso; apply Hd; reflexivity|]. cbn [ser_body] in H. eapply list_rsaved; eassumption.
  - destruct co; [exfalso; apply Hd; reflexivity|]. cbn [ser_body] in H. eapply dict_rsaved; eassumption.
  - exfalso. cbn [ser_body ser_method] in H. apply mbind_ok in H as (u & w1 & H1 & _). apply invalid_ok in H1 as [_ Hv]. congruence.
  - destruct (k_ser (s_class E c)) as [nm|] eqn:En.
    2:{ exfalso. cbn [ser_body ser_method] in H. rewrite En in H. apply mbind_ok in H as (u & w1 & H1 & _). apply invalid_ok in H1 as [_ Hv]. congruence. }
    pose proof Hreg as [Hr _]. specialize (Hr c fds nm Hk En).
    assert (Hm : ser_method E F (Some cx) (OModel c fs []) = Some (nm, ser_model E F (Some cx) c fds fs [])) by (cbn [ser_method]; rewrite En, Hr, Hk; reflexivity).
    assert (Hq : exists q, ser_model E F (Some cx) c fds fs [] w = (Ok (o', q), w') /\ p = emit co (nm, q)).
    { eapply (run_method E Hval n); [| | |exact Hm|exact H]; discriminate. }
    clear H. destruct Hq as (q & H & ->).
    destruct (model_rsaved comps cx c fds fs nm w o' q w' Hk En Hr Hb Hrc Hs Hok H) as [HS He].
    apply (Hfin nm q (DModel c)); [cbn [namer]; pose proof Hsame as (-> & _); rewrite En; reflexivity|rewrite (ser_ty_same E E2 Hsame); assumption|reflexivity|assumption|assumption].
  - eapply (run_method E Hval n) in H as (p1 & H & ->); [|discriminate|discriminate|discriminate|cbn [ser_method]; reflexivity].
    destruct (seq_rsaved comps cx q s w o' p1 w' Hb Hrc Hs Hok H) as [HS He]. cbn [dty_of] in HS.
    eapply Hfin; [| | |assumption|exact HS]; [reflexivity| |reflexivity]. destruct (q_runs q) as [[[]]|], (q_sto q); reflexivity.
  - eapply (run_method E Hval n) in H as (p1 & H & ->); [|discriminate|discriminate|discriminate|cbn [ser_method]; reflexivity].
    destruct (map_rsaved comps cx q s w o' p1 w' Hb Hrc Hs Hok H) as [HS He]. cbn [dty_of] in HS.
    eapply Hfin; [| | |assumption|exact HS]; [reflexivity| |reflexivity]. destruct (p_sto q); reflexivity.
  - destruct co; [exfalso; apply Hd; reflexivity|].
    eapply (run_method E Hval n) in H as (p1 & H & ->); [|discriminate|discriminate|discriminate|cbn [ser_method]; reflexivity].
    inversion Hrc; subst. eapply rec_rsaved; eassumption.
Qed.
End RStep.

Theorem ser_rsaved n : forall o co comps cx w o' p w', built E o -> recorded E o -> (co = true -> direct o) -> sctx i comps cx -> ok w ->
  f_ser (depth E n) (Some cx) co o w = (Ok (o', p), w') -> RSaved n comps (if co then dty_of o else None) w w' p (sto_name E2 o).
Proof.
  induction n as [|n IH]; intros o co comps cx w o' p w' Hb Hrc Hd Hs Hok H; [discriminate|].
  apply (step_rsaved n IH o co comps cx w o' p w' Hb Hrc Hd Hs Hok H).
Qed.
End RSave.
