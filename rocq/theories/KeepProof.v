(** Saving a model that is partly in memory and partly still in its files: the round trip, generalised. *)
From Coq Require Import List Ascii String Bool Arith ZArith Lia.
From Verif Require Import Base PosixModel FsModel PathModel SerialModel StoreModel StoreFrame StoreMount StoreSpec StoreLocal StorePlace
     StoreRecord RoundSpec KeepSpec RoundProof ReplayProof DropProof PathSpec MountSpec DirSpec PosixProof FsProof DirProof TargetProof MountProof HistoryProof PathFacts SerialSpec SerialProof.
Import ListNotations.

Local Arguments str_eq_dec : simpl never.
Local Arguments atom_eq_dec : simpl never.

Section Keep.
Variables E E2 : senv.
Variable i : nat.
Variable D0 : str.
Hypothesis Hcwd : absolute (s_cwd E).
Hypothesis Hdir : absolute D0.
Hypothesis Hret : s_retouch E = $"auto" \/ s_retouch E = $"quit".
Hypothesis Hval : s_validate E = true.
Hypothesis Hreg : registered_classes E.
Hypothesis Huid : ordinary_uuids E.
Hypothesis Hfai : faithful_methods E.
Hypothesis Hsame : same_code E E2.
Hypothesis Hlim : s_limit E2 = None.
Hypothesis Hdet : reads_determined E.
Hypothesis Hdef : plain_defaults E.
(** The model is looked at in the world [wb]; [G] are the files that are read then; [K0], [B] bound the depth. *)
Variable wb : world.
Hypothesis Hwb : well_formed (w_fs wb).
Variable G : loc -> Prop.
Variables K0 B : nat.
Hypothesis HKB : K0 <= B.
(** [U]: the pending deletions that are allowed; [Pev]: the operations that are then allowed; [R]: the files that are then removed. *)
Variable U : list str -> list obj -> Prop.
Variable Pev : event -> Prop.
Variable R : list str -> list obj -> list str -> Prop.
Hypothesis HPw : forall l, Pev (EvWrite l).
Hypothesis HPp : forall p, Pev (EvPrepare i p).
(** The save began when the log was [log0]; it is going to write the files [base] in the end. *)
Variable base : loc -> Prop.
Variable log0 : list event.
Let D := location (s_cwd E) D0.
Let top := List.length (w_mounts wb).
Hypothesis HU : forall comps u n cx w r w1, U comps u -> sctx i comps cx -> mnt_ok i D0 w -> rm_all (depth E n) (Some cx) u w = (Ok r, w1) ->
  (exists evs, w_log w1 = evs ++ w_log w /\ Forall Pev evs) /\
  (s_clean E = true -> D = comps_cp D0 -> forall q, R comps u q -> file_at (w_fs w1) (D ++ q) = None).
Notation ok := (mnt_ok i D0).
Notation L := (Loads E2 D0).
Notation claimed := (claimed E i D0).
Notation hold := (holds_with U E wb D0).
Let Hcwd2 := Hcwd2 E E2 Hcwd Hsame.
Let HD2 : location (s_cwd E2) D0 = D := HD2 E E2 D0 Hsame.
Let Hun := Hun E Hret.

Definition g (l : loc) (c : content) : Prop := (exists r, l = D ++ r) /\ G l /\ file_at (w_fs wb) l = Some c.
(** Files written since the beginning. *)
Definition done_in (lg : list event) (l : loc) : Prop := base l \/ exists evs, lg = evs ++ log0 /\ In (EvWrite l) evs.
Definition done (w : world) (l : loc) : Prop := done_in (w_log w) l.
Definition ext (w w' : world) : Prop :=
  exists evs, w_log w' = evs ++ w_log w /\ Forall Pev evs /\ forall l, file_at (w_fs w) l = None -> file_at (w_fs w') l = None \/ In (EvWrite l) evs.
(** Nothing that was written is removed again. *)
Definition clean (w w' : world) : Prop :=
  forall a p b, w_log w' = a ++ EvRemove i p :: b -> (exists c, b = c ++ w_log w) -> ~ done_in b (requested (s_cwd E) D0 p).
Definition Inv (w : world) : Prop := (exists e, w_log w = e ++ log0) /\ forall l, done w l -> claimed w l.
Definition grows (w w' : world) : Prop := forall l, done w l -> file_at (w_fs w') l = file_at (w_fs w) l.
Definition fresh (w w' : world) (l : loc) (c : content) : Prop := done w' l /\ ~ done w l /\ file_at (w_fs w') l = Some c.
Definition known (w w' : world) (l : loc) (c : content) : Prop := g l c \/ fresh w w' l c.
Definition Seen (o : obj) (t : tree) : Prop :=
  exists m w0 w1, m <= B /\ calm_rel wb w0 /\ view E K0 m o w0 = (Ok t, w1) /\ ReplayProof.reads G w0 w1.
Definition gone (w w' : world) (l : loc) : Prop := file_at (w_fs w') l = None \/ happened w w' (EvWrite l).
Definition Step (w w' : world) : Prop := ext w w' /\ ok w' /\ (clean w w' -> Inv w -> Inv w' /\ grows w w').
Definition Dl (w w' : world) (comps : list str) (o : obj) : Prop :=
  s_clean E = true -> D = comps_cp D0 -> forall q, deleted_with R E comps o q -> gone w w' (D ++ q).
Definition Saved (n : nat) (comps : list str) (x : option dty) (w w' : world) (o : obj) (p : pser) : Prop :=
  Step w w' /\ Dl w w' comps o /\ json_ready p /\ (o <> OAtom ANone -> p <> PAtom ANone) /\
  (clean w w' -> Inv w -> forall t, Seen o t -> L (n + B) (known w w') comps x p t).

Lemma ext_refl w : ext w w.
Proof. exists []. split; [reflexivity|]. split; [constructor|auto]. Qed.
Lemma ext_trans a b c : ext a b -> ext b c -> ext a c.
Proof.
  intros (e1 & L1 & P1 & F1) (e2 & L2 & P2 & F2). exists (e2 ++ e1). split; [rewrite L2, L1, app_assoc; reflexivity|].
  split; [apply Forall_app; auto|]. intros l Hl. destruct (F1 l Hl) as [Hb|Hb]; [|right; apply in_or_app; auto].
  destruct (F2 l Hb) as [Hc|Hc]; [auto|right; apply in_or_app; auto].
Qed.
Lemma done_more a b l : (exists e, b = e ++ a) -> done_in a l -> done_in b l.
Proof. intros [e ->] [Hb|(evs & -> & Hl)]; [left; assumption|right]. exists (e ++ evs). split; [rewrite app_assoc; reflexivity|apply in_or_app; auto]. Qed.
Lemma done_mono w w' l : ext w w' -> done w l -> done w' l.
Proof. intros (e & He & _). apply done_more. exists e. assumption. Qed.
Lemma done_back evs w w' l : (exists e, w_log w = e ++ log0) -> w_log w' = evs ++ w_log w -> done w' l -> done w l \/ In (EvWrite l) evs.
Proof.
  intros [e He] Hw [Hb|(e2 & H2 & Hl)]; [left; left; assumption|]. rewrite Hw, He, app_assoc in H2. apply app_inv_tail in H2. subst e2.
  apply in_app_or in Hl as [Hl|Hl]; [auto|left; right; exists e; auto].
Qed.
Lemma done_new w w' l evs : (exists e, w_log w = e ++ log0) -> w_log w' = evs ++ w_log w -> In (EvWrite l) evs -> done w' l.
Proof. intros [e He] Hw Hl. right. exists (evs ++ e). split; [rewrite Hw, He, app_assoc; reflexivity|apply in_or_app; auto]. Qed.
Lemma clean_left a b c : ext b c -> clean a c -> clean a b.
Proof. intros (e & He & _) H x p y Hl Hy. apply (H (e ++ x) p y); [rewrite He, Hl, app_assoc; reflexivity|assumption]. Qed.
Lemma clean_right a b c : ext a b -> clean a c -> clean b c.
Proof. intros (e & He & _) H x p y Hl [z Hz]. apply (H x p y); [assumption|]. exists (z ++ e). rewrite Hz, He, app_assoc. reflexivity. Qed.
Lemma step_refl w : ok w -> Step w w.
Proof. intros H. split; [apply ext_refl|]. split; [assumption|]. intros _ Hi. split; [assumption|]. intros l _. reflexivity. Qed.
Lemma step_trans a b c : Step a b -> Step b c -> Step a c.
Proof.
  intros (E1 & O1 & I1) (E3 & O3 & I3). split; [eapply ext_trans; eassumption|]. split; [assumption|]. intros Hc Hi.
  destruct (I1 (clean_left _ _ _ E3 Hc) Hi) as [Hb G1]. destruct (I3 (clean_right _ _ _ E1 Hc) Hb) as [Hd G3]. split; [assumption|].
  intros l Hl. rewrite G3, G1; [reflexivity|assumption|eapply done_mono; eassumption].
Qed.
Lemma known_left a b c l x : ext b c -> grows b c -> known a b l x -> known a c l x.
Proof.
  intros He Hg [Hk|(F1 & F2 & F3)]; [left; assumption|right]. split; [eapply done_mono; eassumption|]. split; [assumption|]. rewrite Hg; assumption.
Qed.
Lemma known_right a b c l x : ext a b -> known b c l x -> known a c l x.
Proof. intros He [Hk|(F1 & F2 & F3)]; [left; assumption|right]. split; [assumption|]. split; [|assumption]. intros Hd. apply F2. eapply done_mono; eassumption. Qed.
Lemma gone_left a b c l : ext a b -> ext b c -> gone a b l -> gone a c l.
Proof.
  intros (e1 & L1 & _) (e2 & L2 & _ & F2) [Hn|(evs & Hl & Hin)].
  - destruct (F2 l Hn) as [Hx|Hx]; [left; assumption|right]. exists (e2 ++ e1). split; [rewrite L2, L1, app_assoc; reflexivity|apply in_or_app; auto].
  - right. exists (e2 ++ evs). split; [rewrite L2, Hl, app_assoc; reflexivity|apply in_or_app; auto].
Qed.
Lemma gone_right a b c l : ext a b -> gone b c l -> gone a c l.
Proof.
  intros (e1 & L1 & _) [Hn|(evs & Hl & Hin)]; [left; assumption|right]. exists (evs ++ e1). split; [rewrite Hl, L1, app_assoc; reflexivity|apply in_or_app; auto].
Qed.
(** Removing the files of deleted items. *)
Lemma drop_step n cx comps u w r w1 : U comps u -> sctx i comps cx -> ok w -> rm_all (depth E n) (Some cx) u w = (Ok r, w1) ->
  Step w w1 /\ (s_clean E = true -> D = comps_cp D0 -> forall q, R comps u q -> gone w w1 (D ++ q)).
Proof.
  intros Hu Hs Hok H. pose proof Hs as (Hi & _). destruct (HU comps u n cx w r w1 Hu Hs Hok H) as [(e0 & L0 & HP) HR].
  destruct (rm_all_dropped E i D0 Hcwd Hdir Hret n cx u Hi w (Ok r) w1 H Hok) as (Hok1 & evs & Hl & Hn & Hf).
  pose proof (rm_all_made E i n cx u Hi w (Ok r) w1 H) as (_ & e2 & L2 & F2). assert (e2 = evs) by (rewrite Hl in L2; apply app_inv_tail in L2; congruence). subst e2.
  assert (e0 = evs) by (rewrite Hl in L0; apply app_inv_tail in L0; congruence). subst e0.
  split.
  - split; [exists evs; split; [assumption|]; split; assumption|]. split; [assumption|]. intros Hc [H0 Hi0].
    assert (Hkeep : forall l, done w l -> (claimed w l -> claimed w1 l) /\ file_at (w_fs w1) l = file_at (w_fs w) l).
    { intros l Hd. apply Hf. intros p Hp Hx. apply in_split in Hp as (a & b & ->).
      apply (Hc a p (b ++ w_log w)); [rewrite Hl, <- app_assoc; reflexivity|exists b; reflexivity|]. rewrite Hx. eapply done_more; [exists b; reflexivity|exact Hd]. }
    split; [split|].
    + destruct H0 as [e He]. exists (evs ++ e). rewrite Hl, He, app_assoc. reflexivity.
    + intros l Hd. destruct (done_back evs w w1 l H0 Hl Hd) as [Hd'|Hd']; [apply Hkeep; auto|exfalso; eapply Hn; eassumption].
    + intros l Hd. apply Hkeep. assumption.
  - intros Hc HD q Hq. left. auto.
Qed.

(** ** Looking at the parts *)
Lemma few_base w0 : calm_rel wb w0 -> few top w0.
Proof. intros (_ & _ & H & _). unfold few, top. rewrite H. apply le_n. Qed.
Lemma calm_step {A} (m : M A) w0 r w1 : calm top m -> calm_rel wb w0 -> m w0 = (r, w1) -> calm_rel wb w1 /\ suffix w0 w1.
Proof.
  intros Cm H Hm. pose proof (Cm w0 (few_base w0 H)) as Hc. rewrite Hm in Hc. cbn [snd] in Hc. split; [eapply calm_rel_trans; eassumption|apply Hc].
Qed.
Lemma seen_items l : forall m w0 ts w1, m <= B -> calm_rel wb w0 -> mapM (view E K0 m) l w0 = (Ok ts, w1) -> ReplayProof.reads G w0 w1 -> Forall2 Seen l ts.
Proof.
  induction l as [|x l IH]; intros m w0 ts w1 Hm Hc H Hr.
  - injection H as <- _. constructor.
  - cbn [mapM] in H. apply mbind_ok in H as (t & wa & H1 & H). apply mbind_ok in H as (ts' & wc & H2 & H). unfold ret in H. injection H as <- <-.
    destruct (calm_step _ _ _ _ (calm_view E Hcwd top K0 m x) Hc H1) as [Ca Sa].
    assert (Cl : calm top (mapM (view E K0 m) l)) by (apply calm_mapM; intros y _; apply calm_view; assumption).
    destruct (calm_step _ _ _ _ Cl Ca H2) as [Cb Sb]. destruct (reads_split G w0 wa wc Sa Sb Hr) as [R1 R2].
    constructor; [exists m, w0, wa; auto|exact (IH m wa ts' wc Hm Ca H2 R2)].
Qed.
Lemma Seen_atom a t : Seen (OAtom a) t -> t = TAtom a.
Proof. intros (m & w0 & w1 & _ & _ & H & _). destruct m; [discriminate|]. cbn in H. unfold mbind, ret in H. cbn in H. congruence. Qed.
Lemma Seen_leaf c d t : Seen (OLeaf c d) t -> t = TLeaf c d.
Proof. intros (m & w0 & w1 & _ & _ & H & _). destruct m; [discriminate|]. cbn in H. unfold mbind, ret in H. cbn in H. congruence. Qed.
Lemma Seen_list l t : Seen (OList l) t -> exists ts, t = TList ts /\ Forall2 Seen l ts.
Proof.
  intros (m & w0 & w1 & Hm & Hc & H & Hr). destruct m; [discriminate|]. cbn [view content_of] in H. rewrite mbind_run in H. unfold ret at 1 in H. cbn [fst] in H.
  apply mbind_ok in H as (ts & wa & H1 & H). unfold ret in H. injection H as <- <-. exists ts. split; [reflexivity|]. eapply (seen_items l m); [lia|eassumption|eassumption|assumption].
Qed.
Lemma Seen_seq q l u t : Seen (OSeq q l u) t -> exists ts, t = seq_tree q ts /\ Forall2 Seen l ts.
Proof.
  intros (m & w0 & w1 & Hm & Hc & H & Hr). destruct m; [discriminate|]. cbn [view content_of] in H. rewrite mbind_run in H. unfold ret at 1 in H. cbn [fst] in H.
  apply mbind_ok in H as (ts & wa & H1 & H). unfold ret in H. injection H as <- <-. exists ts. split; [reflexivity|]. eapply (seen_items l m); [lia|eassumption|eassumption|assumption].
Qed.
Lemma Seen_dict d t : Seen (ODict d) t -> exists ts, t = TDict (combine (map fst d) ts) /\ Forall2 Seen (map snd d) ts.
Proof.
  intros (m & w0 & w1 & Hm & Hc & H & Hr). destruct m; [discriminate|]. cbn [view content_of] in H. rewrite mbind_run in H. unfold ret at 1 in H. cbn [fst] in H.
  apply mbind_ok in H as (xs & wa & H1 & H). unfold ret in H. injection H as <- <-. apply mapM_keyed_ok in H1 as (ts & H1 & -> & _). exists ts. split; [reflexivity|].
  eapply (seen_items _ m); [lia|eassumption|eassumption|assumption].
Qed.
Lemma Seen_map p d u t : Seen (OMap p d u) t -> exists ts, t = map_tree p (combine (map fst d) ts) /\ Forall2 Seen (map snd d) ts.
Proof.
  intros (m & w0 & w1 & Hm & Hc & H & Hr). destruct m; [discriminate|]. cbn [view content_of] in H. rewrite mbind_run in H. unfold ret at 1 in H. cbn [fst] in H.
  apply mbind_ok in H as (xs & wa & H1 & H). unfold ret in H. injection H as <- <-. apply mapM_keyed_ok in H1 as (ts & H1 & -> & _). exists ts. split; [reflexivity|].
  eapply (seen_items _ m); [lia|eassumption|eassumption|assumption].
Qed.
Lemma Seen_model c fs u fds vs t : k_kind (s_class E c) = SModel fds ->
  Forall2 (fun f v => assoc (mf_name f) fs = Some v) (filter (fun f => negb (mf_noser f)) fds) vs -> Seen (OModel c fs u) t ->
  exists ts, t = TModel c (combine (map mf_name (filter (fun f => negb (mf_noser f)) fds)) ts) /\ Forall2 Seen vs ts.
Proof.
  intros Hk Hf (m & w0 & w1 & Hm & Hc & H & Hr). destruct m; [discriminate|]. cbn [view content_of] in H. rewrite mbind_run in H. unfold ret at 1 in H. cbn [fst] in H.
  rewrite Hk in H. apply mbind_ok in H as (xs & wa & H1 & H). unfold ret in H. injection H as <- <-. rewrite (mapM_fields (view E K0 m) fs _ vs Hf) in H1.
  destruct (mapM (view E K0 m) vs w0) as [[ts|e] wm] eqn:Em; [|discriminate]. injection H1 as <- <-. exists ts. split; [reflexivity|].
  eapply (seen_items _ m); [lia|eassumption|eassumption|assumption].
Qed.
Lemma Seen_rec content t pre we re tr : is_storable E content = true -> Seen (ORec content t pre we re) tr -> Seen content tr.
Proof. intros Hs (m & w0 & w1 & Hm & Hc & H & Hr). rewrite view_rec in H by assumption. exists m, w0, w1. auto. Qed.

(** A record that waits is read again from the file it was read from. *)
Lemma Seen_waiting N comps ty path cx t pre tr : K0 <= N -> B <= N -> context_at E wb cx D0 comps ->
  Seen (ORec (OUnloaded (Some ty) (from_path path) (join2 D0 (join_sep comps)) cx) t pre None None) tr ->
  Reads E2 D0 N g comps (from_path path) ty tr.
Proof.
  intros HKN HBN Hcx (m & w0 & w1 & Hm & Hc & H & Hr). destruct m as [|m]; [discriminate|].
  destruct (context_at_ok E wb cx D0 comps Hcwd Hdir Hwb Hcx) as [Hokb Hsx].
  assert (Hok0 : mnt_ok (c_mnt cx) D0 w0) by (eapply quiet_ok; [exact Hdir|apply Hc|exact Hokb]).
  cbn [view] in H. apply mbind_ok in H as ([x y] & wx & H1 & H2). cbn [fst] in H2. cbn [content_of rec_load] in H1.
  apply mbind_ok in H1 as ([[v c'] re'] & wv & H1 & H3). unfold ret in H3. injection H3 as <- <- <-.
  apply mbind_ok in H1 as (o & wo & H1 & H3).
  assert (Hso : solid o /\ v = o /\ wv = wo).
  { destruct o; try (unfold ret in H3; injection H3 as <- _ _ <-; split; [exact I|auto]; fail); try (unfold ret in H3; injection H3 as <- _ _ <-; discriminate). }
  destruct Hso as (Hso & -> & ->). clear H3.
  destruct (calm_step _ _ _ _ (calm_ctx_read E Hcwd top K0 cx (from_path path) (Some ty)) Hc H1) as [Ca Sa].
  assert (Hv : view E K0 (S m) o wo = (Ok tr, w1)) by (destruct o; try contradiction; exact H2).
  destruct (calm_step _ _ _ _ (calm_view E Hcwd top K0 (S m) o) Ca Hv) as [Cb Sb].
  destruct (reads_split G w0 wo w1 Sa Sb Hr) as [R1 R2].
  intros K j2 cx2 w2 HK Hs2 Hok2 Hh.
  assert (Hag : forall wa wz, calm_rel wb wa -> has g wz -> agree E D0 G wa wz).
  { intros wa wz ((Hf & _) & _) Hz l c Hl Hfl. apply Hz. split; [exists l; reflexivity|]. split; [assumption|]. rewrite <- Hf. assumption. }
  destruct (read_replay E E2 D0 Hcwd Hdir Hsame Hlim Hval Hdet (c_mnt cx) j2 G top K0 K cx cx2 comps (from_path path) (Some ty)) with (w := w0) (a := o) (w1 := wo) (w2 := w2)
    as (o2 & w2' & L1 & L2 & L3); try assumption.
  { apply de_replay; try assumption. lia. }
  { apply few_base; assumption. }
  { apply Hag; assumption. }
  exists o2, w2'. split; [assumption|]. split; [assumption|]. split; [|destruct L2; try exact I; contradiction].
  intros K' m' w3 HK' Hm' Hok3 Hh3.
  destruct (view_replay E E2 D0 Hcwd Hdir Hsame Hlim Hval Hdet Hdef (c_mnt cx) j2 G top K0 K') with (m := S m) (m2 := m') (o := o) (o' := o2) (w := wo) (a := tr) (w1 := w1) (w2 := w3)
    as (tr' & w3' & V1 & V2 & V3); try assumption; try lia.
  { apply few_base; assumption. }
  { eapply quiet_ok; [exact Hdir|apply Ca|exact Hokb]. }
  { apply Hag; assumption. }
  subst tr'. exists w3'. auto.
Qed.

(** ** Collecting *)
Lemma loads_all n (g0 g' : loc -> content -> Prop) comps ps ts : (forall l c, g0 l c -> g' l c) -> Forall2 (L n g0 comps None) ps ts -> Forall2 (L n g' comps None) ps ts.
Proof. intros H. apply forall2_mono. intros p t Hp. eapply Loads_mono; [apply le_n|exact H|exact Hp]. Qed.
Lemma mapM_saved {A C} (f : A -> M C) (ob : A -> obj) (ps : C -> pser) (Q : C -> Prop) n comps l :
  (forall x w y w', In x l -> ok w -> f x w = (Ok y, w') -> Saved n comps None w w' (ob x) (ps y) /\ Q y) ->
  forall w ys w', ok w -> mapM f l w = (Ok ys, w') ->
  Step w w' /\ (s_clean E = true -> D = comps_cp D0 -> forall x q, In x (map ob l) -> deleted_with R E comps x q -> gone w w' (D ++ q)) /\
  (forall p, In p (map ps ys) -> json_ready p) /\ Forall Q ys /\
  (clean w w' -> Inv w -> forall ts, Forall2 Seen (map ob l) ts -> Forall2 (L (n + B) (known w w') comps None) (map ps ys) ts).
Proof.
  induction l as [|x l IH]; intros Hf w ys w' Hok H.
  - injection H as <- <-. split; [apply step_refl; assumption|]. split; [intros _ _ x q []|]. split; [intros p []|]. split; [constructor|]. intros _ _ ts Ht. inversion Ht; subst. constructor.
  - cbn [mapM] in H. apply mbind_ok in H as (y & w1 & H1 & H). apply mbind_ok in H as (ys0 & w2 & H2 & H). unfold ret in H. injection H as <- <-.
    destruct (Hf x w y w1 (or_introl eq_refl) Hok H1) as [(S1 & S2 & S3 & S4 & S6) Hq]. pose proof S1 as (Se & So & Si).
    destruct (IH (fun a w y w' Ha => Hf a w y w' (or_intror Ha)) w1 ys0 w2 So H2) as (G1 & G2 & G3 & G4 & G6). pose proof G1 as (Ge & Go & Gi).
    split; [eapply step_trans; eassumption|]. split; [|split; [intros p [<-|Hp]; auto|split; [constructor; assumption|]]].
    + intros Hc HD x0 q [<-|Hx] Hd; [eapply gone_left; [exact Se|exact Ge|apply S2; assumption]|eapply gone_right; [exact Se|eapply G2; eassumption]].
    + intros Hc Hi ts Ht. cbn [map] in Ht. inversion Ht as [|a t l1 ts' Ha Hts]; subst. cbn [map].
      pose proof (clean_left _ _ _ Ge Hc) as Hc1. pose proof (clean_right _ _ _ Se Hc) as Hc2. destruct (Si Hc1 Hi) as [Hi1 _]. destruct (Gi Hc2 Hi1) as [_ Hg2]. constructor.
      * eapply Loads_mono; [apply le_n| |apply S6; assumption]. intros l0 c Hl. eapply known_left; eassumption.
      * eapply loads_all; [|apply G6; assumption]. intros l0 c Hl. eapply known_right; eassumption.
Qed.
Lemma rec_target_in content t w t' w' : ordinary E content t -> (exists x, usual_suffix E content x) ->
  rec_target E content t w = (Ok t', w') ->
  exists sd cs, (t_subdir t = Some sd \/ t_subdir t = None /\ sd = []) /\ places t' cs /\ removelast cs = filter named_component (components sd).
Proof.
  intros Ho [x0 Hx] H.
  assert (Hsuf : usual_suffix E content (match ext_of E content with Some x => x | None => if json_like E content then $".json" else s_suffix E end)).
  { destruct Hx as [c d j x Hk|c d Hk|c d Hk|c fs u|q s u|p s u]; cbn; try constructor.
    - rewrite Hk. econstructor. exact Hk.
    - rewrite Hk. apply us_dataclass. assumption.
    - rewrite Hk. apply us_other. assumption. }
  assert (Hc : exists sd st su, t' = mkTarget (Some sd) (Some st) (Some su) /\ (t_subdir t = Some sd \/ t_subdir t = None /\ sd = []) /\
    (t_stem t = Some st \/ t_stem t = None /\ (exists k, st = s_uuid E k)) /\ (t_suffix t = Some su \/ t_suffix t = None /\ usual_suffix E content su)).
  { unfold rec_target in H. destruct t as [sd st su]. destruct (is_complete (mkTarget sd st su)) eqn:Ec.
    - unfold is_complete in Ec. cbn in Ec. destruct sd as [sd|]; [|discriminate]. destruct st as [st|]; [|discriminate]. destruct su as [su|]; [|discriminate].
      unfold ret in H. injection H as <- <-. exists sd, st, su. cbn. auto.
    - unfold m_uuid, mbind, ret in H. injection H as <- <-.
      destruct (ext_of E content) as [e|] eqn:Ee; destruct sd as [sd|], st as [st|], su as [su|]; try discriminate Ec;
        cbn [merge merge2 merge_part t_subdir t_stem t_suffix]; eexists _, _, _; (split; [reflexivity|]); cbn [t_subdir t_stem t_suffix];
        (split; [auto|]); split; eauto. }
  destruct Hc as (sd & st & su & -> & H1 & H2 & H3). destruct (Ho sd st su H1 H2 H3) as (P1 & P2 & P3).
  exists sd, (filter named_component (components sd) ++ [st ++ su]). split; [assumption|]. split; [|apply removelast_last].
  exists sd, (st ++ su). split; [reflexivity|]. split; [reflexivity|]. split; [assumption|]. split; [assumption|]. split; [assumption|reflexivity].
Qed.
Lemma hold_usual comps o : hold comps o -> (exists c d, o = OLeaf c d) \/ is_storable E o = true -> exists x, usual_suffix E o x.
Proof.
  intros Hb Ho. destruct o as [a|l|d|c d|c fs u|q s u|p s u|? ? ? ? ?|? ? ? ?|?|?]; try (destruct Ho as [(? & ? & Hx)|Hx]; discriminate).
  - inversion Hb as [| | |cs0 c0 d0 j ext ty Hk Hs| | | | |]; subst. destruct ext as [x|]; [exists x; econstructor; exact Hk|].
    destruct j; [exists ($".json"); apply us_dataclass; exact Hk|exists (s_suffix E); apply us_other; exact Hk].
  - eexists. constructor.
  - eexists. constructor.
  - eexists. constructor.
Qed.
Lemma hold_leaf comps c d : hold comps (OLeaf c d) -> exists ty, sto_name E (OLeaf c d) = Some ty /\ sto_ty E ty = Some (STLeaf c) /\ is_storable E (OLeaf c d) = true.
Proof.
  intros Hb. inversion Hb as [| | |cs0 c0 d0 j ext ty Hk Hs| | | | |]; subst. exists ty. cbn [sto_name]. split; [assumption|].
  destruct Hreg as [_ Hr]. specialize (Hr c ty Hs). rewrite Hk in Hr. split; [assumption|]. unfold is_storable. cbn [sto_name]. rewrite Hs, Hr. reflexivity.
Qed.
Lemma hold_container comps o : hold comps o -> direct o -> is_storable E o = true ->
  exists ty d, sto_name E o = Some ty /\ sto_ty E ty = Some (STObj d) /\ dty_of o = Some d.
Proof.
  intros Hb Hd Hs. unfold is_storable in Hs. destruct (sto_name E o) as [ty|] eqn:En; [|discriminate]. exists ty.
  destruct o as [a|l|d|c d|c fs u|q s u|p s u|? ? ? ? ?|? ? ? ?|?|?]; try (exfalso; apply Hd; reflexivity).
  - exists (DModel c). split; [reflexivity|]. split; [|reflexivity]. cbn [sto_name] in En. destruct Hreg as [_ Hr]. specialize (Hr c ty En).
    inversion Hb as [| | | |cs0 c0 fs0 u0 fds Hk Hn Hu Hf| | | |]; subst. rewrite Hk in Hr. exact Hr.
  - cbn [sto_name] in En. destruct (q_sto q) eqn:Eq; [|discriminate]. injection En as <-. cbn [dty_of]. rewrite Eq.
    exists (DSeq (match q_runs q with Some _ => true | None => false end) true). split; [reflexivity|].
    destruct (q_runs q) as [[[]]|]; split; reflexivity.
  - cbn [sto_name] in En. destruct (p_sto p) eqn:Eq; [|discriminate]. injection En as <-. cbn [dty_of]. rewrite Eq. exists (DMap true). repeat split; reflexivity.
Qed.

(** ** One level of nesting *)
Section Step.
Variable n : nat.
Let F := depth E n.
Hypothesis IH : forall o co comps cx w o' p w', hold comps o -> (co = true -> direct o) -> sctx i comps cx -> ok w ->
  f_ser F (Some cx) co o w = (Ok (o', p), w') -> Saved n comps (if co then dty_of o else None) w w' o p.

Lemma write_container local l o w : direct o -> is_storable E o = true ->
  write_storable E F local l o w =
  (_ <- m_write E l (Text []);; x <- f_ser F (Some local) true o;; let (o', p) := x : obj * pser in
   _ <- m_write E l (Json (to_json (s_float E) p));; ret o') w.
Proof. intros Hd Hs. unfold write_storable. destruct o; try (exfalso; apply Hd; reflexivity); rewrite Hs; reflexivity. Qed.
Lemma rec_saved comps cx content t pre w o' q w' : loaded content ->
  (forall sd, t_subdir t = Some sd \/ t_subdir t = None /\ sd = [] -> hold (comps ++ filter named_component (components sd)) content) ->
  ordinary E content t -> sctx i comps cx -> ok w ->
  ser_rec E F (Some cx) content t pre None None w = (Ok (o', q), w') ->
  is_storable E content = true /\ Saved (S n) comps None w w' (ORec content t pre None None) (typed n_record q).
Proof.
  intros Hld Hcs Ho Hs Hok H.
  assert (Hc0 : exists cs0, hold cs0 content) by (destruct (t_subdir t) as [sd|] eqn:Et; eexists; apply Hcs; eauto). destruct Hc0 as [cs0 Hc0].
  apply ser_rec_loaded in H as (dir & w0 & t' & w1 & out & we' & c' & _ & -> & H1 & H2 & -> & ->); [|assumption].
  assert (Hwr : (exists c d, content = OLeaf c d) \/ (direct content /\ is_storable E content = true)).
  { pose proof H2 as H3. apply ctx_write_gen in H3 as (p & local & nt & nm & w2 & _ & _ & _ & _ & [(_ & l & w3 & _ & Hw)|(_ & _ & Hv & _)]); [|congruence].
    unfold write_storable in Hw. destruct content; try discriminate Hw; try (left; eauto; fail);
      (right; split; [discriminate|]; destruct (is_storable E _); [reflexivity|discriminate]). }
  assert (Hwu : (exists c d, content = OLeaf c d) \/ is_storable E content = true) by tauto.
  destruct (rec_target_in content t w t' w1 Ho (hold_usual cs0 content Hc0 Hwu) H1) as (sd & cs & Hsd & Hp & Hrl).
  pose proof (Hcs sd Hsd) as Hc. rewrite <- Hrl in Hc.
  apply rec_target_still in H1 as (ku & -> & _). set (w1 := mkWorld (w_fs w) (w_mounts w) (w_inputs w) ku (w_log w)) in *.
  assert (Hok1 : ok w1) by exact Hok.
  destruct (ctx_write_inv E i D0 Hcwd Hdir Hun F cx comps t' cs content w1 out we' c' w' Hok1 Hs Hp H2)
    as (pp & u & n' & w2 & local & Hn' & Hg & Hok2 & Hpo & (z & Z1 & Z2 & Z3) & Hsl & [(-> & Hw)|(_ & _ & Hv & _)]); [|congruence].
  destruct (gave_claims E i D0 Hret pp w1 u _ _ w2 Hg Hok1) as (C1 & C2 & C3 & C4).
  assert (Hlog2 : w_log w2 = EvPrepare i pp :: w_log w).
  { destruct Hg as (m & touched & fs' & _ & _ & _ & _ & _ & -> & _). reflexivity. }
  fold D in Hw, C1, C2, C4. set (l := D ++ comps ++ removelast cs ++ [n']) in *.
  assert (Cw : forall q, claimed w1 q <-> claimed w q) by (intros q; apply claimed_mounts; reflexivity).
  assert (Hout : fspath out = Ok z) by exact Z1. rewrite Hout.
  assert (Hfirst : forall c0 uu w3, m_write E l c0 w2 = (Ok uu, w3) -> Step w w3 /\ happened w w3 (EvWrite l) /\ (forall q, claimed w3 q <-> claimed w q \/ q = l) /\
            (forall q, file_at (w_fs w3) q = if loc_eq_dec q l then Some c0 else file_at (w_fs w) q) /\ (Inv w -> ~ done w l)).
  { intros c0 uu w3 Hm. assert (Hlog3 : w_log w3 = [EvWrite l; EvPrepare i pp] ++ w_log w).
    { apply m_write_inv in Hm. inversion Hm; subst. cbn [set_fs logged w_log]. rewrite Hlog2. reflexivity. }
    apply m_write_ok in Hm as (W1 & W2 & W3).
    assert (Cl : forall q, claimed w3 q <-> claimed w q \/ q = l).
    { intros q. rewrite (claimed_mounts E i D0 w2 w3 q W1), C1, Cw. reflexivity. }
    assert (Hfile : forall q, file_at (w_fs w3) q = if loc_eq_dec q l then Some c0 else file_at (w_fs w) q).
    { intros q. rewrite W2. destruct (loc_eq_dec q l); [reflexivity|apply C3]. }
    assert (Hnd : Inv w -> ~ done w l) by (intros [_ Hi] Hd; apply C2, Cw, Hi, Hd).
    split; [|split; [eexists; split; [exact Hlog3|left; reflexivity]|split; [assumption|split; assumption]]]. split; [|split].
    - exists [EvWrite l; EvPrepare i pp]. split; [assumption|]. split; [repeat constructor; auto|]. intros q Hq. rewrite Hfile. destruct (loc_eq_dec q l) as [->|]; [right; left; reflexivity|auto].
    - destruct Hok2 as [Ha Hb2]. split; [|auto]. rewrite W1. exact Ha.
    - intros _ Hi. split; [split|].
      + destruct Hi as [[e He] _]. eexists. rewrite Hlog3, He, app_assoc. reflexivity.
      + intros q Hq. apply Cl. destruct (done_back _ _ _ _ (proj1 Hi) Hlog3 Hq) as [Hd|[Hd|[Hd|[]]]]; [left; apply Hi; assumption|right; congruence|discriminate].
      + intros q Hq. rewrite Hfile. destruct (loc_eq_dec q l) as [->|]; [exfalso; apply Hnd; assumption|reflexivity]. }
  (* the two ways of writing *)
  assert (Hmain : exists ty, sto_name E content = Some ty /\ is_storable E content = true /\ Step w w' /\ Dl w w' (comps ++ removelast cs) content /\
                    (clean w w' -> Inv w -> forall tr, Seen content tr -> Reads E2 D0 (n + B) (known w w') comps out ty tr)).
  { destruct Hwr as [(c & d & ->)|[Hdc Hst]].
    - destruct (hold_leaf _ c d Hc) as (ty & T1 & T2 & T3). exists ty. split; [assumption|]. split; [assumption|].
      unfold write_storable in Hw. destruct (s_write E c (List.length (w_log w2)) d) as [left e] eqn:Ew.
      apply mbind_ok in Hw as (uu & w3 & Hw & He). destruct e as [e|]; [discriminate|]. unfold ret in He. injection He as <- <-.
      destruct (Hfai c _ d left Ew) as (x & -> & Hrd). destruct (Hfirst _ _ _ Hw) as (Hst & Hwl & Cl & Hfile & Hnd).
      split; [assumption|]. split; [intros _ _ q Hq; inversion Hq|].
      intros Hcl Hi tr Htr. apply Seen_leaf in Htr as ->. eapply (Reads_leaf E2 D0 Hcwd2 Hdir Hlim (n + B) _ comps out (removelast cs ++ [n']) ty c x d).
      + rewrite HD2. exact C4.
      + assumption.
      + rewrite HD2. fold l. right. destruct Hwl as (evs & Hl1 & Hl2). repeat split; [eapply done_new; [apply Hi|eassumption|assumption]|auto|]. rewrite Hfile. destruct (loc_eq_dec l l); congruence.
      + rewrite (sto_ty_same E E2 Hsame). assumption.
      + intros k. pose proof Hsame as (_ & _ & _ & Hrs & _); rewrite Hrs. apply Hrd.
    - destruct (hold_container _ content Hc Hdc Hst) as (ty & dt & T1 & T2 & T3).
      rewrite write_container in Hw by assumption. apply mbind_ok in Hw as (u1 & w3 & Hw1 & Hw). apply mbind_ok in Hw as ([o1 p1] & w4 & Hw2 & Hw).
      apply mbind_ok in Hw as (u2 & w5 & Hw3 & Hw). unfold ret in Hw. injection Hw as <- <-.
      destruct (Hfirst _ _ _ Hw1) as ((E3 & Hok3 & I3) & Hwl & Cl & Hfile & Hnd).
      assert (Hlog5 : w_log w5 = [EvWrite l] ++ w_log w4) by (apply m_write_inv in Hw3; inversion Hw3; subst; reflexivity).
      apply m_write_ok in Hw3 as (X1 & X2 & X3). cbn [snd] in X2.
      destruct (IH content true _ local w3 _ _ w4 Hc (fun _ => Hdc) Hsl Hok3 Hw2) as ((E4 & Hok4 & I4) & S2 & S3 & S4 & S6).
      cbn iota in S6. rewrite T3 in S6.
      exists ty. split; [assumption|]. split; [assumption|].
      assert (Cl5 : forall q, claimed w5 q <-> claimed w4 q) by (intros q; apply claimed_mounts; exact X1).
      assert (E5 : ext w4 w5).
      { exists [EvWrite l]. split; [assumption|]. split; [repeat constructor; auto|]. intros q Hq. rewrite X2. destruct (loc_eq_dec q l) as [->|]; [right; left; reflexivity|auto]. }
      assert (E35 : ext w3 w5) by (eapply ext_trans; eassumption).
      assert (Hdl : Inv w -> done w3 l) by (intros Hi; destruct Hwl as (evs & Hl1 & Hl2); eapply done_new; [apply Hi|eassumption|assumption]).
      assert (Hin4 : clean w w5 -> Inv w -> clean w3 w4 /\ Inv w3 /\ Inv w4 /\ grows w w3 /\ grows w3 w4).
      { intros Hcl Hi. pose proof (clean_left _ _ _ E35 Hcl) as Hc3. pose proof (clean_left _ _ _ E5 (clean_right _ _ _ E3 Hcl)) as Hc4.
        destruct (I3 Hc3 Hi) as [Hi3 Hg3]. destruct (I4 Hc4 Hi3) as [Hi4 Hg4]. auto. }
      split; [|split].
      + split; [eapply ext_trans; eassumption|]. split; [destruct Hok4 as [Ha Hb2]; split; [rewrite X1; exact Ha|auto]|].
        intros Hcl Hi. destruct (Hin4 Hcl Hi) as (Hc4 & Hi3 & Hi4 & Hg3 & Hg4). split; [split|].
        * destruct Hi4 as [[e He] _]. eexists. rewrite Hlog5, He, app_assoc. reflexivity.
        * intros q Hq. apply Cl5, Hi4. destruct (done_back _ _ _ _ (proj1 Hi4) Hlog5 Hq) as [Hd|[Hd|[]]]; [assumption|]. injection Hd as <-. eapply done_mono; [exact E4|apply Hdl; assumption].
        * intros q Hq. rewrite X2. destruct (loc_eq_dec q l) as [->|]; [exfalso; eapply Hnd; eassumption|]. rewrite Hg4, Hg3; [reflexivity|assumption|eapply done_mono; eassumption].
      + intros Hcl HD q Hq. eapply gone_right; [exact E3|]. eapply gone_left; [exact E4|exact E5|]. apply S2; assumption.
      + intros Hcl Hi tr Htr. destruct (Hin4 Hcl Hi) as (Hc4 & Hi3 & Hi4 & Hg3 & Hg4).
        eapply (Reads_obj E2 D0 Hcwd2 Hdir Hlim (n + B) _ comps out (removelast cs ++ [n']) ty dt (s_float E) p1).
        * rewrite HD2. exact C4.
        * assumption.
        * rewrite HD2. fold l. right. repeat split; [eapply done_mono; [exact E35|apply Hdl; assumption]|auto|]. rewrite X2. destruct (loc_eq_dec l l); congruence.
        * assumption.
        * rewrite (sto_ty_same E E2 Hsame). assumption.
        * rewrite removelast_last. eapply Loads_mono; [apply le_n| |apply S6; assumption]. intros q x [Hgq|(B1 & B2 & B3)]; [left; exact Hgq|right].
          assert (Hne : q <> l) by (intros ->; apply B2, Hdl; assumption). repeat split.
          -- eapply done_mono; [exact E5|assumption].
          -- intros Hx. apply B2. eapply done_mono; [exact E3|assumption].
          -- rewrite X2. destruct (loc_eq_dec q l); [contradiction|assumption]. }
  destruct Hmain as (ty & T1 & T2 & T3 & T4 & T6). split; [assumption|].
  assert (Hty : rec_sto_type E content = Some ty) by (destruct content; try discriminate T2; exact T1).
  assert (Hq : [(key "target", PAtom (AStr z)); (key "sto_type", opt_str (rec_sto_type E content))] ++ (if pre then [(key "preload", PAtom (ABool true))] else []) ++
              match exc_entry "write" None ++ exc_entry "read" None with [] => [] | l => [(key "exceptions", PDict l)] end = rec_dict z ty pre).
  { rewrite Hty. unfold rec_dict. cbn [exc_entry app opt_str]. rewrite app_nil_r. reflexivity. }
  rewrite Hq. split; [assumption|]. split; [|split; [apply typed_ready, (rec_ready E Hret)|split; [discriminate|]]].
  { intros Hcl HD q Hd. apply T4; try assumption. inversion Hd as [| | | | |cs1 c1 t1 pre1 we1 re1 q1 Hd1| | |]; subst. rewrite Hrl.
    replace (filter named_component (components sd)) with (sub_of t); [assumption|]. unfold sub_of. destruct Hsd as [->|[-> ->]]; reflexivity. }
  intros Hcl Hi tr Htr. subst out. apply (Loads_rec E2 D0 Hdir (n + B)). apply T6; try assumption. eapply Seen_rec; eassumption.
Qed.

Lemma waiting_saved comps cx ty path cx0 t pre w o' q w' : fspath (from_path path) = Ok path -> context_at E wb cx0 D0 comps -> sctx i comps cx -> ok w ->
  ser_rec E F (Some cx) (OUnloaded (Some ty) (from_path path) (join2 D0 (join_sep comps)) cx0) t pre None None w = (Ok (o', q), w') ->
  Saved (S n) comps None w w' (ORec (OUnloaded (Some ty) (from_path path) (join2 D0 (join_sep comps)) cx0) t pre None None) (typed n_record q).
Proof.
  intros Hfp Hcx Hs Hok H. pose proof Hok as [(m & Hm & Hmd & _) _]. pose proof Hs as (Hi & Hsub & _).
  assert (Hcd : ctx_dir cx w = (Ok (join2 D0 (join_sep comps)), w)).
  { unfold ctx_dir, m_dir_of. rewrite mbind_run, Hi, Hm, Hmd, Hsub. reflexivity. }
  unfold ser_rec, rec_store in H. rewrite mbind_run, mbind_run, Hcd in H. cbn zeta in H.
  destruct (str_eq_dec (join2 D0 (join_sep comps)) (join2 D0 (join_sep comps))) as [_|Hx]; [|congruence]. cbn [negb andb] in H. unfold ret in H. rewrite Hfp in H.
  cbn [rec_sto_type exc_entry app opt_str] in H. injection H as _ <- <-.
  assert (Hq : (key "target", PAtom (AStr path)) :: (key "sto_type", PAtom (AStr ty)) :: (if pre then [(key "preload", PAtom (ABool true))] else []) ++ [] = rec_dict path ty pre).
  { unfold rec_dict. rewrite app_nil_r. reflexivity. }
  rewrite Hq. split; [apply step_refl; assumption|]. split; [intros _ _ q Hd; inversion Hd as [| | | | |cs1 c1 t1 pre1 we1 re1 q1 Hd1| | |]; subst; inversion Hd1|].
  split; [apply typed_ready, (rec_ready E Hret)|]. split; [intros _; discriminate|].
  intros Hcl Hinv tr Htr. apply (Loads_rec E2 D0 Hdir (n + B)).
  assert (Hr : Reads E2 D0 (n + B) g comps (from_path path) ty tr) by (eapply Seen_waiting; try eassumption; lia).
  intros K j cx1 w2 HK Hs1 Hok1 Hh. destruct (Hr K j cx1 w2) as (o & w3 & R1 & R2 & R3 & R4); try assumption; [intros l c Hl; apply Hh; left; exact Hl|].
  exists o, w3. split; [assumption|]. split; [assumption|]. split; [|assumption]. eapply Shown_mono; [apply le_n| |exact R3]. intros l c Hl. left. exact Hl.
Qed.
Lemma rm_if comps cx u v (b : bool) w r w1 : U comps u -> sctx i comps cx -> ok w -> (if b then rm_all F (Some cx) u else ret v) w = (Ok r, w1) ->
  Step w w1 /\ (b = true -> s_clean E = true -> D = comps_cp D0 -> forall q, R comps u q -> gone w w1 (D ++ q)).
Proof.
  intros Hu Hs Hok H. destruct b.
  - destruct (drop_step n cx comps u w r w1 Hu Hs Hok H) as [H1 H2]. auto.
  - unfold ret in H. injection H as _ <-. split; [apply step_refl; assumption|discriminate].
Qed.
Lemma rm_none (b : bool) cx (d : list obj) w : (if b then rm_all F (Some cx) [] else ret d) w = (Ok (if b then [] else d), w).
Proof. destruct b; reflexivity. Qed.
Lemma item_saved comps cx o w y w' : hold comps o -> sctx i comps cx -> ok w -> ser_item E F (Some cx) o w = (Ok y, w') ->
  Saved n comps None w w' o (item_ps y) /\ snd y <> None.
Proof.
  intros Hb Hs Hok H.
  assert (H' : (x <- f_ser F (Some cx) false o;; ret (fst x, Some (snd x))) w = (Ok y, w')).
  { unfold ser_item in H. destruct o; try exact H. inversion Hb; subst; cbn [rec_exists] in H; rewrite orb_true_r in H; exact H. }
  apply mbind_ok in H' as ([o1 p1] & w1 & H1 & H2). unfold ret in H2. injection H2 as <- <-. cbn [snd fst]. split; [|discriminate].
  apply (IH o false comps cx w o1 p1 w1 Hb); [discriminate|assumption|assumption|exact H1].
Qed.
Lemma seq_saved comps cx q s u w o' p w' : hold comps (OSeq q s u) -> sctx i comps cx -> ok w ->
  ser_seq E F (Some cx) q s u w = (Ok (o', p), w') -> Saved (S n) comps (dty_of (OSeq q s u)) w w' (OSeq q s u) p /\ exists e, p = PDict e.
Proof.
  intros Hb Hs Hok H. inversion Hb as [| | | | |cs0 q0 s0 u0 Hu Hi| | |]; subst. unfold ser_seq in H.
  apply mbind_ok in H as (r1 & w1 & H1 & H). destruct (rm_if comps cx u _ (s_clean E) w r1 w1 Hu Hs Hok H1) as [R1 R2]. pose proof R1 as (Re & Ro & Ri).
  apply mbind_ok in H as (ys & w2 & H2 & H).
  destruct (mapM_saved (ser_item E F (Some cx)) (fun o => o) item_ps (fun y => snd y <> None) n comps s) with (w := w1) (ys := ys) (w' := w2)
    as (G1 & G2 & G3 & G4 & G6); [intros x w0 y w9 Hx Hok0 Hy; eapply item_saved; eauto|assumption|assumption|]. pose proof G1 as (Ge & Go & Gi).
  destruct (kept_items ys G4) as [K1 K2]. rewrite K1, K2 in H.
  apply mbind_ok in H as (r2 & w3 & H3 & H). rewrite rm_none in H3. injection H3 as _ <-. unfold ret in H. injection H as _ <- <-.
  split; [|eexists; reflexivity]. rewrite map_id in G2, G6.
  change (Saved (S n) comps (dty_of (OSeq q s u)) w w2 (OSeq q s u) (PDict (seq_dict q (map item_ps ys)))).
  split; [eapply step_trans; eassumption|]. split; [|split; [apply (seq_ready E Hret); assumption|split; [discriminate|]]].
  - intros Hc HD q0 Hd. inversion Hd as [| | |cs1 q1 s1 u1 x q2 Hx Hxd| | | |cs1 q1 s1 u1 q2 Hdr|]; subst.
    + eapply gone_right; [exact Re|]. eapply G2; eassumption.
    + eapply gone_left; [exact Re|exact Ge|]. apply R2; assumption.
  - intros Hc Hin tr Htr. apply Seen_seq in Htr as (ts & -> & Hts). apply (Loads_seq E2 D0 Hdir (n + B)).
    destruct (Ri (clean_left _ _ _ Ge Hc) Hin) as [Hin1 _].
    eapply loads_all; [|apply G6; [eapply clean_right; eassumption|assumption|assumption]]. intros l0 c Hl. eapply known_right; eassumption.
Qed.

Lemma map_saved comps cx q s u w o' p w' : hold comps (OMap q s u) -> sctx i comps cx -> ok w ->
  ser_map E F (Some cx) q s u w = (Ok (o', p), w') -> Saved (S n) comps (dty_of (OMap q s u)) w w' (OMap q s u) p /\ exists e, p = PDict e.
Proof.
  intros Hb Hs Hok H. inversion Hb as [| | | | | |cs0 q0 s0 u0 Hu Hi Hnd| |]; subst. unfold ser_map in H.
  apply mbind_ok in H as (r1 & w1 & H1 & H). destruct (rm_if comps cx u [] true w r1 w1 Hu Hs Hok H1) as [R1 R2]. pose proof R1 as (Re & Ro & Ri).
  apply mbind_ok in H as (xs & w2 & H2 & H). apply mapM_keyed_ok in H2 as (ys & H2 & -> & Hlen).
  destruct (mapM_saved (ser_item E F (Some cx)) (fun o => o) item_ps (fun y => snd y <> None) n comps (map snd s)) with (w := w1) (ys := ys) (w' := w2)
    as (G1 & G2 & G3 & G4 & G6); [|assumption|assumption|].
  { intros x w0 y w9 Hx Hok0 Hy. apply in_map_iff in Hx as ([k v] & <- & Hx). eapply item_saved; eauto. }
  pose proof G1 as (Ge & Go & Gi).
  destruct (kept_items ys G4) as [K1 K2]. rewrite combine_snd, K1 in H by assumption.
  apply mbind_ok in H as (r2 & w3 & H3 & H). rewrite rm_none in H3. injection H3 as _ <-. unfold ret in H. injection H as _ <- <-.
  split; [|eexists; reflexivity]. rewrite map_id in G2, G6.
  assert (Hfl : flat_map (fun kx : str * (obj * option pser) => match snd (snd kx) with Some s => [(AStr (fst kx), s)] | None => [] end) (combine (map fst s) ys)
     = map (fun kv => (AStr (fst kv), snd kv)) (combine (map fst s) (map item_ps ys))).
  { clear - G4 Hlen. revert ys G4 Hlen. induction (map fst s) as [|k ks IHk]; intros [|[o [p|]] ys] G4 Hlen; try reflexivity; try discriminate.
    - inversion G4; subst. cbn. f_equal. apply IHk; [assumption|]. cbn in Hlen. congruence.
    - inversion G4; subst. cbn in *. congruence. }
  rewrite Hfl. change (Saved (S n) comps (dty_of (OMap q s u)) w w2 (OMap q s u) (PDict (map_dict q (map (fun kv => (AStr (fst kv), snd kv)) (combine (map fst s) (map item_ps ys)))))).
  assert (Hl2 : List.length (map fst s) = List.length (map item_ps ys)) by (rewrite (map_length item_ps); assumption).
  split; [eapply step_trans; eassumption|]. split; [|split; [apply (map_ready E Hret), str_dict_ready; assumption|split; [discriminate|]]].
  - intros Hc HD q0 Hd. inversion Hd as [| | | |cs1 q1 s1 u1 k x q2 Hx Hxd| | | |cs1 q1 s1 u1 q2 Hdr]; subst.
    + eapply gone_right; [exact Re|]. eapply G2; try eassumption. apply in_map_iff. exists (k, x). auto.
    + eapply gone_left; [exact Re|exact Ge|]. apply R2; trivial.
  - intros Hc Hin tr Htr. apply Seen_map in Htr as (ts & -> & Hts). destruct (Ri (clean_left _ _ _ Ge Hc) Hin) as [Hin1 _].
    apply (Loads_map E2 D0 Hdir (n + B) _ comps q (map fst s) (map item_ps ys) ts); [assumption|assumption|].
    eapply loads_all; [|apply G6; [eapply clean_right; eassumption|assumption|assumption]]. intros l0 c Hl. eapply known_right; eassumption.
Qed.

(** Lists and dicts. *)
Lemma plain_saved comps cx o w y w' : hold comps o -> sctx i comps cx -> ok w -> ser_plain_item E F (Some cx) o w = (Ok y, w') ->
  Saved n comps None w w' o (snd y).
Proof.
  intros Hb Hs Hok H. unfold ser_plain_item in H. destruct (is_storable E o) eqn:Est.
  - apply mbind_ok in H as ([o1 p1] & w1 & H1 & H2). unfold ret in H2. injection H2 as <- <-. cbn [snd].
    assert (Hbr : hold comps (fresh_record o)).
    { constructor; [|apply auto_ordinary; assumption]. intros sd [Hsd|[Hsd _]]; [|discriminate]. cbn in Hsd. injection Hsd as <-. cbn. rewrite app_nil_r. assumption. }
    destruct (IH (fresh_record o) false comps cx w o1 p1 w1 Hbr) as (S1 & S2 & S3 & S4 & S6); [discriminate|assumption|assumption|exact H1|].
    split; [assumption|]. split; [|split; [assumption|split; [intros _; apply S4; discriminate|]]].
    { intros Hcl HD q Hd. apply S2; try assumption. constructor. cbn. rewrite app_nil_r. assumption. }
    intros Hcl Hi tr (m & wa & wc & Q1 & Q2 & Q3 & Q4). apply S6; try assumption.
    exists m, wa, wc. unfold fresh_record. rewrite view_rec by assumption. auto.
  - destruct y as [o1 p1]. apply (IH o false comps cx w o1 p1 w' Hb); [discriminate|assumption|assumption|exact H].
Qed.
Lemma list_saved comps cx l w o' p w' : hold comps (OList l) -> sctx i comps cx -> ok w ->
  ser_list E F (Some cx) l w = (Ok (o', p), w') -> Saved (S n) comps None w w' (OList l) p.
Proof.
  intros Hb Hs Hok H. inversion Hb as [|cs0 l0 Hi| | | | | | |]; subst. unfold ser_list in H. apply mbind_ok in H as (ys & w1 & H1 & H).
  destruct (mapM_saved (ser_plain_item E F (Some cx)) (fun o => o) snd (fun _ => True) n comps l) with (w := w) (ys := ys) (w' := w1)
    as (G1 & G2 & G3 & _ & G6); [intros x w0 y w2 Hx Hok0 Hy; split; [eapply plain_saved; eauto|exact I]|assumption|assumption|].
  cbn zeta in H. unfold ret in H. injection H as _ <- <-. rewrite map_id in G2, G6.
  split; [assumption|]. split; [intros Hcl HD q Hd; inversion Hd; subst; eapply G2; eassumption|]. destruct (existsb (is_storable E) l).
  - split; [|split; [intros _; discriminate|]].
    + apply typed_ready. apply (seq_ready E Hret (mkSeq false [] false None)). assumption.
    + intros Hcl Hin tr Htr. apply Seen_list in Htr as (ts & -> & Hts). eapply (Loads_typed E2 D0 (n + B) _ comps (DSeq false false)); [reflexivity|].
      apply (Loads_seq E2 D0 Hdir (n + B) _ comps (mkSeq false [] false None) (map snd ys) ts). apply G6; assumption.
  - split; [constructor; assumption|]. split; [discriminate|]. intros Hcl Hin tr Htr. apply Seen_list in Htr as (ts & -> & Hts). apply (Loads_list E2 D0 Hdir (n + B)). apply G6; assumption.
Qed.
Lemma dict_saved comps cx d w o' p w' : hold comps (ODict d) -> sctx i comps cx -> ok w ->
  ser_dict E F (Some cx) d w = (Ok (o', p), w') -> Saved (S n) comps None w w' (ODict d) p.
Proof.
  intros Hb Hs Hok H. inversion Hb as [| |cs0 d0 Hi Hnd| | | | | |]; subst. unfold ser_dict in H. apply mbind_ok in H as (xs & w1 & H1 & H).
  apply mapM_keyed_ok in H1 as (ys & H1 & -> & Hlen).
  destruct (mapM_saved (ser_plain_item E F (Some cx)) (fun o => o) snd (fun _ => True) n comps (map snd d)) with (w := w) (ys := ys) (w' := w1)
    as (G1 & G2 & G3 & _ & G6); [|assumption|assumption|].
  { intros x w0 y w2 Hx Hok0 Hy. apply in_map_iff in Hx as ([k v] & <- & Hx). split; [eapply plain_saved; eauto; apply (Hi k v Hx)|exact I]. }
  cbn zeta in H. unfold ret in H. injection H as _ <- <-. rewrite map_id in G2, G6.
  assert (Hmap : map (fun kx : atom * (obj * pser) => (fst kx, snd (snd kx))) (combine (map fst d) ys) = combine (map fst d) (map snd ys)).
  { clear - Hlen. revert ys Hlen. induction (map fst d) as [|k ks IHk]; intros [|y ys] Hlen; try reflexivity. cbn. f_equal. apply IHk. cbn in Hlen. congruence. }
  rewrite Hmap.
  assert (Hks : exists ks, map fst d = map AStr ks /\ NoDup ks /\ ~ In SER_TYPE ks).
  { clear - Hi Hnd. induction d as [|[k v] d IHd]; [exists []; split; [reflexivity|split; [constructor|intros []]]|].
    cbn [map fst] in *. inversion Hnd as [|? ? N1 N2]; subst.
    destruct IHd as (ks & K1 & K2 & K3); [intros k' x' Hx'; apply Hi; right; assumption|assumption|].
    destruct (Hi k v (or_introl eq_refl)) as [(s & -> & Hs) _]. exists (s :: ks). cbn [map]. split; [congruence|].
    split; [|intros [Hx|Hx]; [congruence|auto]]. constructor; [|assumption]. intros Hx. apply N1. rewrite K1. apply in_map. assumption. }
  destruct Hks as (ks & K1 & K2 & K3).
  assert (Hl2 : List.length (map fst d) = List.length (map snd ys)) by (rewrite (map_length snd ys); assumption).
  assert (Hl3 : List.length ks = List.length (map snd ys)) by (rewrite K1, map_length in Hl2; assumption).
  assert (Hcomb : forall A (l : list A), combine (map AStr ks) l = map (fun kv => (AStr (fst kv), snd kv)) (combine ks l)).
  { clear. induction ks as [|k ks IHk]; intros A [|x l]; try reflexivity. cbn. f_equal. apply IHk. }
  assert (Hsee : clean w w1 -> Inv w -> forall tr, Seen (ODict d) tr -> exists ts, tr = TDict (combine (map fst d) ts) /\ Forall2 (L (n + B) (known w w1) comps None) (map snd ys) ts).
  { intros Hcl Hin tr Htr. apply Seen_dict in Htr as (ts & -> & Hts). exists ts. auto. }
  split; [assumption|]. split; [intros Hcl HD q Hd; inversion Hd as [|cs1 d1 k x q1 Hx Hxd| | | | | | |]; subst; eapply G2; try eassumption; apply in_map_iff; exists (k, x); auto|]. rewrite K1 in *. destruct (existsb (is_storable E) (map snd d)).
  - rewrite Hcomb. split; [|split; [intros _; discriminate|]].
    + apply typed_ready. apply (map_ready E Hret (mkMap false [] false false false)). apply str_dict_ready; assumption.
    + intros Hcl Hin tr Htr. destruct (Hsee Hcl Hin tr Htr) as (ts & -> & Hts). eapply (Loads_typed E2 D0 (n + B) _ comps (DMap false)); [reflexivity|].
      pose proof (Loads_map E2 D0 Hdir (n + B) (known w w1) comps (mkMap false [] false false false) ks (map snd ys) ts Hl3 K2 Hts) as Hx.
      cbn [map_tree] in Hx. rewrite <- (Hcomb tree) in Hx. exact Hx.
  - split; [|split; [intros _; discriminate|]].
    + rewrite Hcomb. apply str_dict_ready; assumption.
    + intros Hcl Hin tr Htr. destruct (Hsee Hcl Hin tr Htr) as (ts & -> & Hts). apply (Loads_dict E2 D0 Hdir (n + B)); [assumption| |assumption].
      intros Hx. apply in_map_iff in Hx as (s & Hx & Hy). injection Hx as ->. contradiction.
Qed.

(** Modelclass instances. *)
Lemma fields_saved comps cx fds : sctx i comps cx -> NoDup (map mf_name fds) -> forall fs w fs' d w',
  (forall f v, In f fds -> mf_noser f = false -> assoc (mf_name f) fs = Some v ->
     hold comps v /\ (v = OAtom ANone -> mf_default f = None \/ mf_default f = Some (OAtom ANone))) ->
  ok w -> ser_fields_m F (Some cx) fds fs w = (Ok (fs', d), w') ->
  Step w w' /\ (s_clean E = true -> D = comps_cp D0 -> forall f v q, In f fds -> mf_noser f = false -> assoc (mf_name f) fs = Some v -> deleted_with R E comps v q -> gone w w' (D ++ q)) /\
  (forall k p, In (k, p) d -> (exists f, In f fds /\ mf_noser f = false /\ k = AStr (mf_name f)) /\ json_ready p) /\ NoDup (map fst d) /\
  exists vs, Forall2 (fun f v => assoc (mf_name f) fs = Some v) (filter (fun f => negb (mf_noser f)) fds) vs /\
    (clean w w' -> Inv w -> forall ts, Forall2 Seen vs ts -> Forall2 (told E2 D0 (n + B) (known w w') comps d) (filter (fun f => negb (mf_noser f)) fds) ts).
Proof.
  intros Hs. induction fds as [|f fds IHf]; intros Hnd fs w fs' d w' Hb Hok H.
  - injection H as _ <- <-. split; [apply step_refl; assumption|]. split; [intros _ _ f v q []|]. split; [intros k p []|]. split; [constructor|]. exists []. split; [constructor|]. intros _ _ ts Ht. inversion Ht; subst. constructor.
  - cbn [map] in Hnd. inversion Hnd as [|? ? N1 N2]; subst. cbn [ser_fields_m] in H. cbn [filter]. destruct (mf_noser f) eqn:En; cbn [negb].
    + destruct (IHf N2 fs w fs' d w') as (G1 & G2 & G3 & G4 & G5); [intros f0 v Hf0; apply Hb; right; assumption|assumption|assumption|].
      split; [assumption|]. split; [intros Hcl HD f0 v q [<-|Hf0] Hno; [congruence|]; intros Ha Hd; eapply G2; eassumption|]. split; [|split; [assumption|exact G5]].
      intros k p Hp. destruct (G3 k p Hp) as [(f0 & X1 & X2 & X3) X4]. split; [exists f0; split; [right; assumption|auto]|assumption].
    + destruct (assoc (mf_name f) fs) as [v|] eqn:Ea; [|discriminate].
      destruct (Hb f v (or_introl eq_refl) En Ea) as [Hv Hdfl].
      assert (Hcase : v = OAtom ANone \/ (v <> OAtom ANone /\
         (x <- f_ser F (Some cx) false v;; y <- ser_fields_m F (Some cx) fds (assoc_set (mf_name f) (fst x) fs);; ret (fst y, (AStr (mf_name f), snd x) :: snd y)) w = (Ok (fs', d), w'))).
      { destruct v as [[| | | |]|l|dd|c x|c x u|q x u|q x u|? ? ? ? ?|? ? ? ?|?|?]; try (right; split; [discriminate|exact H]). left. reflexivity. }
      destruct Hcase as [-> | [Hnn H']].
      * destruct (IHf N2 fs w fs' d w') as (G1 & G2 & G3 & G4 & vs & G5 & G7); [intros f0 v Hf0; apply Hb; right; assumption|assumption|assumption|].
        split; [assumption|]. split; [intros Hcl HD f0 v q [<-|Hf0] Hno Ha Hd; [rewrite Ea in Ha; injection Ha as <-; inversion Hd|eapply G2; eassumption]|]. split; [|split; [assumption|]].
        { intros k p Hp. destruct (G3 k p Hp) as [(f0 & X1 & X2 & X3) X4]. split; [exists f0; split; [right; assumption|auto]|assumption]. }
        exists (OAtom ANone :: vs). split; [constructor; assumption|]. intros Hcl Hin ts0 Ht0. inversion Ht0 as [|? t0 ? ts Ha Hts]; subst. apply Seen_atom in Ha as ->. constructor; [|auto].
        left. split; [|auto]. apply RoundProof.assoc_a_none. intros p Hp. destruct (G3 _ p Hp) as [(f0 & X1 & _ & X3) _]. injection X3 as X3. apply N1. rewrite X3. apply in_map. assumption.
      * apply mbind_ok in H' as ([o1 p1] & w1 & H1 & H'). apply mbind_ok in H' as ([fs1 d1] & w2 & H2 & H'). unfold ret in H'. cbn [fst snd] in *. injection H' as <- <- <-.
        destruct (IH v false comps cx w o1 p1 w1 Hv) as (S1 & S2 & S3 & S4 & S6); [discriminate|assumption|assumption|exact H1|]. pose proof S1 as (Se & So & Si).
        assert (Hoth : forall f0, In f0 fds -> assoc (mf_name f0) (assoc_set (mf_name f) o1 fs) = assoc (mf_name f0) fs).
        { intros f0 Hf0. apply assoc_set_other. intros Hx. apply N1. rewrite Hx. apply in_map. assumption. }
        destruct (IHf N2 (assoc_set (mf_name f) o1 fs) w1 fs1 d1 w2) as (G1 & G2 & G3 & G4 & vs & G5 & G7).
        { intros f0 v0 Hf0 Hno Hx. rewrite Hoth in Hx by assumption. apply Hb; [right; assumption|assumption|assumption]. }
        { assumption. } { assumption. }
        pose proof G1 as (Ge & Go & Gi).
        assert (Hnew : forall p, ~ In (AStr (mf_name f), p) d1).
        { intros p Hp. destruct (G3 _ p Hp) as [(f0 & X1 & _ & X3) _]. injection X3 as X3. apply N1. rewrite X3. apply in_map. assumption. }
        split; [eapply step_trans; eassumption|]. split.
        { intros Hcl HD f0 v0 q [<-|Hf0] Hno Ha Hd.
          - rewrite Ea in Ha. injection Ha as <-. eapply gone_left; [exact Se|exact Ge|]. apply S2; assumption.
          - eapply gone_right; [exact Se|]. eapply (G2 Hcl HD f0 v0); try eassumption. rewrite Hoth; assumption. }
        split; [|split].
        { intros k p [Hp|Hp].
          - injection Hp as <- <-. split; [exists f; split; [left; reflexivity|auto]|assumption].
          - destruct (G3 k p Hp) as [(f0 & X1 & X2 & X3) X4]. split; [exists f0; split; [right; assumption|auto]|assumption]. }
        { cbn [map fst]. constructor; [|assumption]. intros Hx. apply in_map_iff in Hx as ([k p] & Hk & Hp). cbn in Hk. subst k. eapply Hnew. exact Hp. }
        exists (v :: vs). split; [constructor; [assumption|]|intros Hcl Hin ts0 Ht0; inversion Ht0 as [|? t ? ts Ha Hts]; subst;
          pose proof (clean_left _ _ _ Ge Hcl) as Hc1; pose proof (clean_right _ _ _ Se Hcl) as Hc2; destruct (Si Hc1 Hin) as [Hi1 _]; destruct (Gi Hc2 Hi1) as [_ Hg2];
          specialize (G7 Hc2 Hi1 ts Hts); constructor].
        { assert (Hfl : forall f0, In f0 (filter (fun f => negb (mf_noser f)) fds) -> In f0 fds) by (intros f0 Hf0; apply filter_In in Hf0; tauto).
          clear - G5 Hoth Hfl. induction G5 as [|f0 v0 fl vs Hx Hy IHy]; constructor; [rewrite <- Hoth; [assumption|apply Hfl; left; reflexivity]|].
          apply IHy. intros f1 Hf1. apply Hfl. right. assumption. }
        { right. exists p1. split; [cbn; destruct (atom_eq_dec (AStr (mf_name f)) (AStr (mf_name f))); congruence|]. split; [apply S4; assumption|].
          eapply Loads_mono; [apply le_n| |apply S6; assumption]. intros l c Hl. eapply known_left; eassumption. }
        { assert (Hfl : forall f0, In f0 (filter (fun f => negb (mf_noser f)) fds) -> In f0 fds) by (intros f0 Hf0; apply filter_In in Hf0; tauto).
          assert (Hm : forall f0 t0, In f0 fds -> told E2 D0 (n + B) (known w1 w2) comps d1 f0 t0 -> told E2 D0 (n + B) (known w w2) comps ((AStr (mf_name f), p1) :: d1) f0 t0).
          { intros f0 t0 Hf0 Hq0. apply told_other; [intros Hx; injection Hx as Hx; apply N1; rewrite <- Hx; apply in_map; assumption|].
            eapply told_mono; [|exact Hq0]. intros l c Hl. eapply known_right; eassumption. }
          clear - G7 Hm Hfl. induction G7 as [|f0 t0 fl ts Hx Hy IHy]; constructor; [apply Hm; [apply Hfl; left; reflexivity|assumption]|].
          apply IHy. intros f1 Hf1. apply Hfl. right. assumption. }
Qed.
Lemma model_saved comps cx c fds fs u w o' p w' : k_kind (s_class E c) = SModel fds -> hold comps (OModel c fs u) -> sctx i comps cx -> ok w ->
  ser_model E F (Some cx) c fds fs u w = (Ok (o', p), w') -> Saved (S n) comps (Some (DModel c)) w w' (OModel c fs u) p /\ exists e, p = PDict e.
Proof.
  intros Hk Hb Hs Hok H. inversion Hb as [| | | |cs0 c0 fs0 u0 fds0 Hk' Hnd Hu Hf| | | |]; subst. rewrite Hk in Hk'. injection Hk' as <-.
  unfold ser_model in H. apply mbind_ok in H as (r1 & w1 & H1 & H). destruct (rm_if comps cx u _ (s_clean E) w r1 w1 Hu Hs Hok H1) as [R1 R2]. pose proof R1 as (Re & Ro & Ri).
  apply mbind_ok in H as ([fs' d] & w2 & H2 & H). unfold ret in H. cbn [fst snd] in H. injection H as _ <- <-.
  destruct (fields_saved comps cx fds Hs Hnd fs w1 fs' d w2 Hf Ro H2) as (G1 & G2 & G3 & G4 & vs & G5 & G7). pose proof G1 as (Ge & Go & Gi).
  split; [|eexists; reflexivity]. split; [eapply step_trans; eassumption|]. split; [|split; [|split; [discriminate|]]].
  - intros Hc HD q0 Hd. inversion Hd as [| |cs1 c1 fs1 u1 fds1 f v q2 Hk1 Hx Hno Ha Hxd| | | |cs1 c1 fs1 u1 q2 Hdr| |]; subst.
    + rewrite Hk in Hk1. injection Hk1 as <-. eapply gone_right; [exact Re|]. eapply G2; eassumption.
    + eapply gone_left; [exact Re|exact Ge|]. apply R2; assumption.
  - constructor; [|assumption|].
    + intros k x Hx. destruct (G3 k x Hx) as [(f & _ & _ & ->) _]. eauto.
    + intros k x Hx. apply (G3 k x Hx).
  - intros Hc Hin tr Htr. destruct (Seen_model c fs u fds vs tr Hk G5 Htr) as (ts & -> & Hts). destruct (Ri (clean_left _ _ _ Ge Hc) Hin) as [Hin1 _].
    + apply (Loads_model E2 D0 Hdir (n + B) _ comps c fds d ts).
      * pose proof (proj1 Hsame) as Hcl. rewrite Hcl. assumption.
      * assumption.
      * intros f Hf0 Hno. apply RoundProof.assoc_a_none. intros p Hp. destruct (G3 _ p Hp) as [(f0 & X1 & X2 & X3) _]. injection X3 as X3.
        assert (f = f0). { clear - Hnd Hf0 X1 X3. induction fds as [|g r IHr]; [contradiction|]. cbn in Hnd. inversion Hnd as [|? ? N1 N2]; subst.
          destruct Hf0 as [<-|Hf0], X1 as [<-|X1]; auto; exfalso; apply N1; [rewrite X3|rewrite <- X3]; apply in_map; assumption. }
        congruence.
      * eapply forall2_mono; [|apply G7; [eapply clean_right; eassumption|assumption|exact Hts]]. intros f0 t0 H0. eapply told_mono; [|exact H0].
        intros l0 c0 Hl. eapply known_right; eassumption.
Qed.

Lemma step_saved o co comps cx w o' p w' : hold comps o -> (co = true -> direct o) -> sctx i comps cx -> ok w ->
  ser_body E F (Some cx) co o w = (Ok (o', p), w') -> Saved (S n) comps (if co then dty_of o else None) w w' o p.
Proof.
  intros Hb Hd Hs Hok H.
  assert (Hfin : forall nm q d, ser_ty E2 nm = Some d -> dty_of o = Some d -> (exists e, q = PDict e) -> Saved (S n) comps (Some d) w w' o q ->
    Saved (S n) comps (if co then dty_of o else None) w w' o (emit co (nm, q))).
  { intros nm q d Hty Hdt [e ->] HS. destruct co; [rewrite Hdt; exact HS|]. destruct HS as (S1 & S2 & S3 & S4 & S6).
    cbn [emit fst snd]. split; [assumption|]. split; [assumption|]. split; [apply typed_ready; assumption|]. split; [intros _; discriminate|].
    intros Hcl Hin tr Htr. eapply (Loads_typed E2 D0 (n + B)); [eassumption|]. apply S6; assumption. }
  inversion Hb as [cs0 a|cs0 l Hi|cs0 d Hi Hn|cs0 c d j ext ty Hk Ht|cs0 c fs uu fds Hk Hn Hu Hf|cs0 q s uu Hu Hi|cs0 q s uu Hu Hi Hn|cs0 content t pre Hc Ho|cs0 ty path cx0 t pre Hfp Hcx]; subst cs0 o.
  - cbn in H. injection H as <- <- <-. destruct co; [exfalso; apply Hd; reflexivity|]. split; [apply step_refl; assumption|]. split; [intros _ _ q Hq; inversion Hq|]. split; [constructor|].
    split; [congruence|]. intros _ _ tr Htr. apply Seen_atom in Htr as ->. apply (Loads_atom E2 D0 (n + B)).
  - destruct co; [exfalso; apply Hd; reflexivity|]. cbn [ser_body] in H. eapply list_saved; eassumption.
  - destruct co; [exfalso; apply Hd; reflexivity|]. cbn [ser_body] in H. eapply dict_saved; eassumption.
  - exfalso. cbn [ser_body ser_method] in H. apply mbind_ok in H as (u & w1 & H1 & _). apply invalid_ok in H1 as [_ Hv]. congruence.
  - destruct (k_ser (s_class E c)) as [nm|] eqn:En.
    2:{ exfalso. cbn [ser_body ser_method] in H. rewrite En in H. apply mbind_ok in H as (u & w1 & H1 & _). apply invalid_ok in H1 as [_ Hv]. congruence. }
    pose proof Hreg as [Hr _]. specialize (Hr c fds nm Hk En).
    assert (Hm : ser_method E F (Some cx) (OModel c fs uu) = Some (nm, ser_model E F (Some cx) c fds fs uu)) by (cbn [ser_method]; rewrite En, Hr, Hk; reflexivity).
    assert (Hq : exists q, ser_model E F (Some cx) c fds fs uu w = (Ok (o', q), w') /\ p = emit co (nm, q)).
    { eapply (run_method E Hval); [| | |exact Hm|exact H]; discriminate. }
    clear H. destruct Hq as (q & H & ->).
    pose proof (model_saved comps cx c fds fs uu w o' q w' Hk Hb Hs Hok H) as Hms. destruct Hms as [HS He].
    apply (Hfin nm q (DModel c)); [rewrite (ser_ty_same E E2 Hsame); assumption|reflexivity|assumption|assumption].
  - eapply (run_method E Hval) in H as (p1 & H & ->); [|discriminate|discriminate|discriminate|cbn [ser_method]; reflexivity].
    destruct (seq_saved comps cx q s uu w o' p1 w' Hb Hs Hok H) as [HS He]. cbn [dty_of] in HS.
    eapply Hfin; [|reflexivity|assumption|exact HS]. destruct (q_runs q) as [[[]]|], (q_sto q); reflexivity.
  - eapply (run_method E Hval) in H as (p1 & H & ->); [|discriminate|discriminate|discriminate|cbn [ser_method]; reflexivity].
    destruct (map_saved comps cx q s uu w o' p1 w' Hb Hs Hok H) as [HS He]. cbn [dty_of] in HS.
    eapply Hfin; [|reflexivity|assumption|exact HS]. destruct (p_sto q); reflexivity.
  - destruct co; [exfalso; apply Hd; reflexivity|].
    eapply (run_method E Hval) in H as (p1 & H & ->); [|discriminate|discriminate|discriminate|cbn [ser_method]; reflexivity].
    assert (Hld : loaded content). { intros ty tt b c ->. destruct (t_subdir t) as [sd|] eqn:Et; [specialize (Hc sd (or_introl eq_refl))|specialize (Hc [] (or_intror (conj eq_refl eq_refl)))]; inversion Hc. }
    apply (rec_saved comps cx content t pre w o' p1 w' Hld Hc Ho Hs Hok H).
  - destruct co; [exfalso; apply Hd; reflexivity|].
    eapply (run_method E Hval) in H as (p1 & H & ->); [|discriminate|discriminate|discriminate|cbn [ser_method]; reflexivity].
    eapply waiting_saved; eassumption.
Qed.
End Step.

Theorem ser_kept n : forall o co comps cx w o' p w', hold comps o -> (co = true -> direct o) -> sctx i comps cx -> ok w ->
  f_ser (depth E n) (Some cx) co o w = (Ok (o', p), w') -> Saved n comps (if co then dty_of o else None) w w' o p.
Proof.
  induction n as [|n IH]; intros o co comps cx w o' p w' Hb Hd Hs Hok H; [discriminate|].
  apply (step_saved n IH o co comps cx w o' p w' Hb Hd Hs Hok H).
Qed.
End Keep.
