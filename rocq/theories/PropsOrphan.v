(** Deleting an item that cannot be read: C71. *)
From Coq Require Import List Ascii String Bool Arith ZArith Lia.
From Verif Require Import Base PosixModel FsModel PathModel SerialModel StoreModel TrackModel ContainerModel StoreFrame StoreMount StoreSpec StoreLocal StorePlace
     StoreRecord StoreSave StoreEvents StoreExample SerialSpec SerialProof RoundSpec KeepSpec RoundProof ReplayProof CleanProof DropProof DropSettled KeepProof ContextProof KeepSave PathSpec MountSpec DirSpec
     PosixProof FsProof DirProof TargetProof MountProof HistoryProof PathFacts PropsStore PropsRepo PropsRound PropsKeep PropsDelete.
Import ListNotations.

Local Arguments str_eq_dec : simpl never.
Local Arguments atom_eq_dec : simpl never.

(** ** Specification *)
(** A stored type that this program cannot read: no class is registered under its name, or the [__read__] of the class
    raises whatever is in the file. *)
Definition unreadable (E : senv) (ty : str) : Prop :=
  sto_ty E ty = None \/ exists c, sto_ty E ty = Some (STLeaf c) /\ forall k x, exists e, s_read E c k x = Exn e /\ is_ser_error e = false.
(** A record of such a type that was never accessed. *)
Definition unreadable_record (E : senv) (o : obj) : Prop :=
  exists ty t' b cx t pre we re, unreadable E ty /\ o = ORec (OUnloaded (Some ty) t' b cx) t pre we re.

(** Nothing but looking at files happens. *)
Definition quiet (w w' : world) : Prop :=
  exists evs, w_log w' = evs ++ w_log w /\ (forall l, ~ In (EvWrite l) evs) /\ (forall i p, ~ In (EvRemove i p) evs) /\ (forall q, file_at (w_fs w') q = file_at (w_fs w) q).
Lemma quiet_refl w : quiet w w.
Proof. exists []. repeat split; auto. Qed.
Lemma quiet_trans a b c : quiet a b -> quiet b c -> quiet a c.
Proof.
  intros (e1 & L1 & W1 & R1 & F1) (e2 & L2 & W2 & R2 & F2). exists (e2 ++ e1). split; [rewrite L2, L1, app_assoc; reflexivity|]. split; [|split].
  - intros l Hx. apply in_app_or in Hx as [Hx|Hx]; [eapply W2|eapply W1]; eassumption.
  - intros i p Hx. apply in_app_or in Hx as [Hx|Hx]; [eapply R2|eapply R1]; eassumption.
  - intros q. rewrite F2, F1. reflexivity.
Qed.
Notation calm := (pres (fun _ => True) quiet).
Lemma quiet_prepare E j p ch w : quiet w (snd (m_prepare E j p ch w)).
Proof.
  destruct (m_prepare E j p ch w) as [r w'] eqn:H. apply m_prepare_inv in H. destruct H as [Hl|Hn|m r fs m' inp Hm Hp]; cbn [snd].
  - apply quiet_refl.
  - exists [EvPrepare j p]. split; [reflexivity|]. split; [intros l [Hx|[]]; discriminate|]. split; [intros i q [Hx|[]]; discriminate|reflexivity].
  - exists [EvPrepare j p]. split; [reflexivity|]. split; [intros l [Hx|[]]; discriminate|]. split; [intros i q [Hx|[]]; discriminate|].
    intros q. cbn [w_fs]. eapply prepare_files; eassumption.
Qed.
Lemma quiet_read E l w : quiet w (snd (m_read E l w)).
Proof.
  destruct (m_read E l w) as [r w'] eqn:H. cbn [snd]. apply m_read_inv in H as [[_ ->]|[-> _]]; [apply quiet_refl|].
  exists [EvRead l]. split; [reflexivity|]. split; [intros q [Hx|[]]; discriminate|]. split; [intros i q [Hx|[]]; discriminate|reflexivity].
Qed.

Section Orphan.
Variable E : senv.

Lemma calm_bind {A B} (m : M A) (f : A -> M B) : calm m -> (forall a, calm (f a)) -> calm (mbind m f).
Proof. apply pres_bind; [exact quiet_trans|auto]. Qed.
Lemma calm_ret {A} (a : A) : calm (ret a).
Proof. intros w _. apply quiet_refl. Qed.
Lemma calm_lift {A} (r : res A) : calm (lift r).
Proof. intros w _. apply quiet_refl. Qed.
Lemma calm_raise {A} e : calm (@raise A e).
Proof. intros w _. apply quiet_refl. Qed.
Lemma calm_path local nt : calm (ctx_path E local nt).
Proof. apply pres_ctx_path; [exact quiet_refl|exact quiet_trans|auto]. Qed.
Lemma calm_prep cx t ch : calm (ctx_prepare E cx t ch).
Proof.
  unfold ctx_prepare. apply calm_bind; [apply calm_lift|intros a]. apply calm_bind; [apply calm_lift|intros q].
  apply calm_bind; [intros w _; apply quiet_prepare|intros u]. apply calm_bind; [apply calm_lift|intros s].
  destruct (t_subdir u); [|apply calm_raise]. apply calm_bind; [apply calm_lift|intros nt; apply calm_ret].
Qed.

(** Reading such a record gives a marker, unless the process is stopped or [validate] is on. *)
Lemma unreadable_load F ty t' b cx re w r w' : unreadable E ty -> rec_load E F (OUnloaded (Some ty) t' b cx) re w = (r, w') ->
  quiet w w' /\ ((s_validate E = false /\ exists m, r = Ok (OMark m, OUnloaded (Some ty) t' b cx, Some (EMark m))) \/ exists e, r = Exn e /\ is_ser_error e = true).
Proof.
  intros Hu H. cbn [rec_load] in H. rewrite mbind_run in H. unfold ctx_read in H. rewrite mbind_run in H. unfold attempt in H.
  destruct ((x <- ctx_prepare E cx t' (Some ($"_ignore"));; (let (local, nt) := x : ctx * target in l <- ctx_path E local nt;; read_storable E F local l (Some ty))) w) as [r1 w1] eqn:H1.
  assert (Hq : quiet w w1 /\ exists e, r1 = Exn e).
  { rewrite mbind_run in H1. pose proof (calm_prep cx t' (Some ($"_ignore")) w I) as Q1.
    destruct (ctx_prepare E cx t' (Some ($"_ignore")) w) as [[[local nt]|e] w2]; [|injection H1 as <- <-; split; [exact Q1|eauto]].
    rewrite mbind_run in H1. pose proof (calm_path local nt w2 I) as Q2. cbn [snd] in Q1.
    destruct (ctx_path E local nt w2) as [[l|e] w3]; cbn [snd] in Q2; [|injection H1 as <- <-; split; [eapply quiet_trans; eassumption|eauto]].
    assert (Q12 : quiet w w3) by (eapply quiet_trans; eassumption). unfold read_storable in H1. destruct Hu as [Hu|(c & Hu & Hr)]; rewrite Hu in H1.
    - injection H1 as <- <-. split; [assumption|eauto].
    - rewrite mbind_run in H1. pose proof (quiet_read E l w3) as Q3. destruct (m_read E l w3) as [[x|e] w4]; cbn [snd] in Q3.
      + destruct (Hr (List.length (w_log w3)) x) as (e & He & _). rewrite mbind_run in H1. unfold lift in H1. rewrite He in H1. injection H1 as <- <-.
        split; [eapply quiet_trans; eassumption|eauto].
      + injection H1 as <- <-. split; [eapply quiet_trans; eassumption|eauto]. }
  destruct Hq as [Hq (e & ->)].
  assert (Hinv : forall mk, (let (r0, w'0) := (_ <- invalid_found E;; ret (OMark mk)) w1 in
      match r0 with Ok a => match a with OMark m => ret (a, OUnloaded (Some ty) t' b cx, Some (EMark m)) | _ => ret (a, a, None) end w'0 | Exn e0 => (Exn e0, w'0) end) = (r, w') ->
      quiet w w' /\ ((s_validate E = false /\ exists m, r = Ok (OMark m, OUnloaded (Some ty) t' b cx, Some (EMark m))) \/ exists e, r = Exn e /\ is_ser_error e = true)).
  { intros mk Hx. unfold invalid_found in Hx. destruct (s_validate E); cbn in Hx; injection Hx as <- <-; split; eauto. }
  destruct e; try (apply (Hinv _ H)); cbn in H; injection H as <- <-; (split; [assumption|right; eexists; split; reflexivity]).
Qed.

(** Removing it does what reading it does. *)
Lemma unreadable_rm n cx o w r w' : unreadable_record E o -> f_rm (depth E n) cx o w = (r, w') ->
  quiet w w' /\ ((s_validate E = false /\ exists o', r = Ok o') \/ exists e, r = Exn e /\ is_ser_error e = true).
Proof.
  intros (ty & t' & b & cx' & t & pre & we & re & Hu & ->) H. destruct n as [|n]; [cbn in H; injection H as <- <-; split; [apply quiet_refl|right; eexists; split; reflexivity]|].
  cbn [depth f_rm rm_body] in H. unfold rm_rec in H. rewrite mbind_run in H.
  destruct (rec_load E (depth E n) (OUnloaded (Some ty) t' b cx') re w) as [r1 w1] eqn:H1.
  destruct (unreadable_load _ _ _ _ _ _ _ _ _ Hu H1) as [Hq [(Hv & m & ->)|(e & -> & He)]].
  - cbn in H. injection H as <- <-. split; [assumption|left; split; [assumption|eauto]].
  - injection H as <- <-. split; [assumption|right; eauto].
Qed.
Lemma unreadable_rm_all n cx u : Forall (unreadable_record E) u -> forall w r w', mapM (f_rm (depth E n) cx) u w = (r, w') ->
  quiet w w' /\ (((s_validate E = false \/ u = []) /\ exists u', r = Ok u') \/ exists e, r = Exn e /\ is_ser_error e = true).
Proof.
  induction 1 as [|x u Hx Hu IH]; intros w r w' H; cbn [mapM] in H.
  - injection H as <- <-. split; [apply quiet_refl|left; split; eauto].
  - rewrite mbind_run in H. destruct (f_rm (depth E n) cx x w) as [r1 w1] eqn:H1. destruct (unreadable_rm _ _ _ _ _ _ Hx H1) as [Hq [(Hv & o' & ->)|(e & -> & He)]].
    + rewrite mbind_run in H. destruct (mapM (f_rm (depth E n) cx) u w1) as [r2 w2] eqn:H2. destruct (IH _ _ _ H2) as [Hq2 [(_ & u' & ->)|(e & -> & He)]].
      * cbn in H. injection H as <- <-. split; [eapply quiet_trans; eassumption|left; split; eauto].
      * injection H as <- <-. split; [eapply quiet_trans; eassumption|right; eauto].
    + injection H as <- <-. split; [assumption|right; eauto].
Qed.
(** The values of the list or dict itself are plain here. *)
Lemma plain_ser n cx l : forall w r w', mapM (ser_item E (depth E n) cx) (map OAtom l) w = (r, w') ->
  w' = w /\ (r = Ok (map (fun a => (OAtom a, Some (PAtom a))) l) \/ exists e, r = Exn e /\ is_ser_error e = true).
Proof.
  induction l as [|a l IH]; intros w r w' H; cbn [map mapM] in H; [injection H as <- <-; auto|]. destruct n as [|n].
  - cbn in H. injection H as <- <-. split; [reflexivity|right; eexists; split; reflexivity].
  - rewrite mbind_run in H. assert (H1 : ser_item E (depth E (S n)) cx (OAtom a) w = (Ok (OAtom a, Some (PAtom a)), w)) by reflexivity. rewrite H1 in H.
    rewrite mbind_run in H. destruct (mapM (ser_item E (depth E (S n)) cx) (map OAtom l) w) as [r2 w2] eqn:H2. destruct (IH _ _ _ H2) as [-> [->|(e & -> & He)]].
    + cbn in H. injection H as <- <-. auto.
    + injection H as <- <-. split; [reflexivity|right; eauto].
Qed.
Lemma plain_dangling l : dangling (map (fun a => (OAtom a, Some (PAtom a))) l) = [].
Proof. induction l; [reflexivity|exact IHl]. Qed.
Lemma plain_kept l : kept (map (fun a => (OAtom a, Some (PAtom a))) l) = map PAtom l.
Proof. induction l as [|a l IH]; [reflexivity|]. cbn. f_equal. exact IH. Qed.
Lemma plain_fst l : map fst (map (fun a => (OAtom a, Some (PAtom a))) l) = map OAtom l.
Proof. induction l as [|a l IH]; [reflexivity|]. cbn. f_equal. exact IH. Qed.

Lemma list_ser n cx co q l u w o' j w' : Forall (unreadable_record E) u -> s_clean E = true ->
  f_ser (depth E n) (Some cx) co (OSeq q (map OAtom l) u) w = (Ok (o', j), w') ->
  quiet w w' /\ o' = OSeq q (map OAtom l) [] /\ (s_validate E = false \/ u = []).
Proof.
  intros Hu Hc H. destruct n as [|n]; [discriminate|]. cbn [depth f_ser ser_body ser_method] in H.
  apply mbind_ok in H as (r & w1 & H1 & H). unfold attempt in H1.
  destruct (ser_seq E (depth E n) (Some cx) q (map OAtom l) u w) as [r1 w2] eqn:H2. injection H1 as <- <-.
  unfold ser_seq in H2. rewrite Hc in H2. cbn [rm_all] in H2. rewrite mbind_run in H2.
  destruct (mapM (f_rm (depth E n) cx) u w) as [r3 w3] eqn:H3. destruct (unreadable_rm_all _ _ _ Hu _ _ _ H3) as [Hq [(Hv & u' & ->)|(e & -> & He)]].
  2:{ injection H2 as <- <-. rewrite He in H. discriminate. }
  rewrite mbind_run in H2. destruct (mapM (ser_item E (depth E n) (Some cx)) (map OAtom l) w3) as [r4 w4] eqn:H4.
  destruct (plain_ser _ _ _ _ _ _ H4) as [-> [->|(e & -> & He)]].
  2:{ injection H2 as <- <-. rewrite He in H. discriminate. }
  rewrite plain_dangling, plain_fst in H2. cbn in H2. injection H2 as <- <-. injection H as <- _ <-. auto.
Qed.

Lemma dict_ser n cx co p d u w o' j w' : Forall (unreadable_record E) u -> s_clean E = true ->
  f_ser (depth E n) (Some cx) co (OMap p (map (fun ka => (fst ka, OAtom (snd ka))) d) u) w = (Ok (o', j), w') ->
  quiet w w' /\ o' = OMap p (map (fun ka => (fst ka, OAtom (snd ka))) d) [] /\ (s_validate E = false \/ u = []).
Proof.
  intros Hu Hc H. destruct n as [|n]; [discriminate|]. cbn [depth f_ser ser_body ser_method] in H.
  apply mbind_ok in H as (r & w1 & H1 & H). unfold attempt in H1.
  destruct (ser_map E (depth E n) (Some cx) p (map (fun ka => (fst ka, OAtom (snd ka))) d) u w) as [r1 w2] eqn:H2. injection H1 as <- <-.
  unfold ser_map in H2. rewrite Hc in H2. cbn [rm_all] in H2. rewrite mbind_run in H2.
  destruct (mapM (f_rm (depth E n) cx) u w) as [r3 w3] eqn:H3. destruct (unreadable_rm_all _ _ _ Hu _ _ _ H3) as [Hq [(Hv & u' & ->)|(e & -> & He)]].
  2:{ injection H2 as <- <-. rewrite He in H. discriminate. }
  rewrite mbind_run in H2.
  assert (Hm : forall d w r w', mapM (fun kv => x <- ser_item E (depth E n) (Some cx) (snd kv);; ret (fst kv, x)) (map (fun ka : str * atom => (fst ka, OAtom (snd ka))) d) w = (r, w') ->
    w' = w /\ (r = Ok (map (fun ka => (fst ka, (OAtom (snd ka), Some (PAtom (snd ka))))) d) \/ exists e, r = Exn e /\ is_ser_error e = true)).
  { clear. induction d as [|[k a] d IH]; intros w r w' H; cbn [map mapM] in H; [injection H as <- <-; auto|]. destruct n as [|n].
    - cbn in H. injection H as <- <-. split; [reflexivity|right; eexists; split; reflexivity].
    - rewrite mbind_run in H. cbn [fst snd] in H. rewrite mbind_run in H.
      assert (H1 : ser_item E (depth E (S n)) (Some cx) (OAtom a) w = (Ok (OAtom a, Some (PAtom a)), w)) by reflexivity. rewrite H1 in H. unfold ret in H at 1. rewrite mbind_run in H.
      match type of H with context [mapM ?f ?x w] => destruct (mapM f x w) as [r2 w2] eqn:H2 end. destruct (IH _ _ _ H2) as [-> [->|(e & -> & He)]].
      + cbn in H. injection H as <- <-. auto.
      + injection H as <- <-. split; [reflexivity|right; eauto]. }
  match type of H2 with context [mapM ?f ?x w3] => destruct (mapM f x w3) as [r4 w4] eqn:H4 end.
  destruct (Hm _ _ _ _ H4) as [-> [->|(e & -> & He)]].
  2:{ injection H2 as <- <-. rewrite He in H. discriminate. }
  assert (Hd : dangling (map snd (map (fun ka : str * atom => (fst ka, (OAtom (snd ka), Some (PAtom (snd ka))))) d)) = []) by (clear; induction d; [reflexivity|exact IHd]).
  rewrite Hd in H2. cbn in H2. injection H2 as <- <-. injection H as <- _ <-. split; [assumption|]. split; [|assumption]. rewrite map_map. reflexivity.
Qed.

(** A save that serializes quietly leaves all files but those of the key itself alone. *)
Lemma quiet_save n p k o w o' j w' : absolute (s_cwd E) -> absolute (o_base p) -> In (s_retouch E) unattended ->
  plain k -> k <> $".gitignore" -> well_formed (w_fs w) -> is_serializable E o = true -> save E n p k o w = (Ok (o', j), w') ->
  (forall cx co wa o1 j1 wb, f_ser (depth E n) (Some cx) co o wa = (Ok (o1, j1), wb) -> quiet wa wb) ->
  let dir := location (s_cwd E) (key_dir p k) in
  forall q, q <> [k ++ $".json"] -> ~ own_ignore E p k (dir ++ q) -> file_at (w_fs w') (dir ++ q) = file_at (w_fs w) (dir ++ q).
Proof.
  intros Hc Hb Hun Hk Hgi Hw Hs H Hf dir q Hq Hown.
  pose proof (save_inv_log E Hc Hun p k Hb n o w o' j w' [k]) as HS. cbn zeta in HS. cbn [removelast last app] in HS.
  destruct HS as (o1 & q0 & u & wa & wb & fs1 & fs2 & mt & Ho1 & Hg & Hoka & Hser & Hokb & Hf1 & Hf2 & Hmt & Hmt' & Hmd & Hclose & Hlog);
    [discriminate|constructor; [assumption|constructor]|reflexivity|assumption|assumption|].
  assert (o1 = o) by (destruct Ho1 as [[-> _]|(_ & Hx & _)]; congruence). subst o1.
  destruct (Hf _ _ _ _ _ _ Hser) as (evs & Hl & Hwr & Hrm & _).
  assert (Hloga : exists q1, w_log wa = EvPrepare (List.length (w_mounts w)) q1 :: w_log w).
  { destruct Hg as (mm & touched & fs' & _ & _ & _ & _ & _ & -> & _). eexists. reflexivity. }
  destruct Hloga as (q1 & Hloga).
  assert (Hin : forall ev, happened w w' ev -> ev = EvClose (List.length (w_mounts w)) \/ ev = EvWrite (dir ++ [k ++ $".json"]) \/ In ev evs \/ ev = EvPrepare (List.length (w_mounts w)) q1).
  { intros ev (es & He & Hi). rewrite Hlog, Hl, Hloga in He.
    assert (Hes : es = EvClose (List.length (w_mounts w)) :: EvWrite (dir ++ [k ++ $".json"]) :: EvWrite (dir ++ [k ++ $".json"]) :: evs ++ [EvPrepare (List.length (w_mounts w)) q1]).
    { apply (app_inv_tail (w_log w)). rewrite <- He. cbn [app]. rewrite <- app_assoc. reflexivity. }
    subst es. destruct Hi as [<-|[<-|[<-|Hi]]]; auto. apply in_app_or in Hi as [Hi|[<-|[]]]; auto. }
  apply (saved_others E n p k o w o' j w' q); trivial.
  - intros Hx. destruct (Hin _ Hx) as [Hy|[Hy|[Hy|Hy]]]; try discriminate; [|eapply Hwr; exact Hy]. injection Hy as Hy. apply app_inv_head in Hy. contradiction.
  - intros i r Hx. destruct (Hin _ Hx) as [Hy|[Hy|[Hy|Hy]]]; try discriminate. exfalso. eapply Hrm. exact Hy.
Qed.
(** With [validate] the first such item stops the serialization, whatever else is in the list or dict. *)
Lemma validated_stops n cx co x u w (o : obj) : s_validate E = true -> s_clean E = true -> unreadable_record E x -> 
  (exists q s, o = OSeq q s (x :: u)) \/ (exists p d, o = OMap p d (x :: u)) -> exists e w', f_ser (depth E n) (Some cx) co o w = (Exn e, w').
Proof.
  intros Hv Hc Hx Ho. destruct n as [|n]; [do 2 eexists; reflexivity|].
  destruct (f_rm (depth E n) cx x w) as [r1 w1] eqn:H1. destruct (unreadable_rm _ _ _ _ _ _ Hx H1) as [Hq [(Hv' & _)|(e & -> & He)]]; [congruence|].
  assert (H2 : mapM (f_rm (depth E n) cx) (x :: u) w = (Exn e, w1)) by (cbn [mapM]; rewrite mbind_run, H1; reflexivity).
  destruct Ho as [(q & s & ->)|(p & d & ->)]; exists e, w1; cbn [depth f_ser ser_body ser_method]; rewrite mbind_run; unfold attempt, ser_seq, ser_map; rewrite ?Hc; cbn [rm_all]; rewrite mbind_run, H2, He; reflexivity.
Qed.
End Orphan.

(** ** Theorems *)
(** The save goes through and forgets the items; no file but those of the key itself changes, so theirs are left behind. *)
Theorem C71_unreadable_items_left : forall E n p k q l u w o' j w',
  absolute (s_cwd E) -> absolute (o_base p) -> In (s_retouch E) unattended -> s_clean E = true -> plain k -> k <> $".gitignore" -> well_formed (w_fs w) ->
  Forall (unreadable_record E) u -> save E n p k (OSeq q (map OAtom l) u) w = (Ok (o', j), w') ->
  let dir := location (s_cwd E) (key_dir p k) in
  o' = OSeq q (map OAtom l) [] /\
  forall f, f <> [k ++ $".json"] -> ~ own_ignore E p k (dir ++ f) -> file_at (w_fs w') (dir ++ f) = file_at (w_fs w) (dir ++ f).
Proof.
  intros E n p k q l u w o' j w' Hc Hb Hun Hcl Hk Hgi Hw Hu H dir. split.
  - pose proof (save_inv_log E Hc Hun p k Hb n (OSeq q (map OAtom l) u) w o' j w' [k]) as HS. cbn zeta in HS.
    destruct HS as (o1 & q0 & t & wa & wb & fs1 & fs2 & mt & Ho1 & _ & _ & Hser & _); [discriminate|constructor; [assumption|constructor]|reflexivity|eassumption|eassumption|].
    assert (Ho : o1 = OSeq q (map OAtom l) u) by (destruct Ho1 as [[-> _]|(_ & Hx & _)]; [reflexivity|discriminate]). subst o1.
    apply (list_ser E n (mkCtx (List.length (w_mounts w)) []) false q l u wa o' j wb Hu Hcl Hser).
  - apply (quiet_save E n p k (OSeq q (map OAtom l) u) w o' j w'); trivial.
    intros cx co wa o1 j1 wb Hs. apply (list_ser E n cx co q l u wa o1 j1 wb Hu Hcl Hs).
Qed.
Theorem C71_unreadable_values_left : forall E n p k q d u w o' j w',
  absolute (s_cwd E) -> absolute (o_base p) -> In (s_retouch E) unattended -> s_clean E = true -> plain k -> k <> $".gitignore" -> well_formed (w_fs w) ->
  Forall (unreadable_record E) u -> save E n p k (OMap q (map (fun ka => (fst ka, OAtom (snd ka))) d) u) w = (Ok (o', j), w') ->
  let dir := location (s_cwd E) (key_dir p k) in
  o' = OMap q (map (fun ka => (fst ka, OAtom (snd ka))) d) [] /\
  forall f, f <> [k ++ $".json"] -> ~ own_ignore E p k (dir ++ f) -> file_at (w_fs w') (dir ++ f) = file_at (w_fs w) (dir ++ f).
Proof.
  intros E n p k q d u w o' j w' Hc Hb Hun Hcl Hk Hgi Hw Hu H dir. split.
  - pose proof (save_inv_log E Hc Hun p k Hb n (OMap q (map (fun ka => (fst ka, OAtom (snd ka))) d) u) w o' j w' [k]) as HS. cbn zeta in HS.
    destruct HS as (o1 & q0 & t & wa & wb & fs1 & fs2 & mt & Ho1 & _ & _ & Hser & _); [discriminate|constructor; [assumption|constructor]|reflexivity|eassumption|eassumption|].
    assert (Ho : o1 = OMap q (map (fun ka => (fst ka, OAtom (snd ka))) d) u) by (destruct Ho1 as [[-> _]|(_ & Hx & _)]; [reflexivity|discriminate]). subst o1.
    apply (dict_ser E n (mkCtx (List.length (w_mounts w)) []) false q d u wa o' j wb Hu Hcl Hser).
  - apply (quiet_save E n p k (OMap q (map (fun ka => (fst ka, OAtom (snd ka))) d) u) w o' j w'); trivial.
    intros cx co wa o1 j1 wb Hs. apply (dict_ser E n cx co q d u wa o1 j1 wb Hu Hcl Hs).
Qed.
(** With [validate] such a list or dict cannot be saved any more. *)
Theorem C71_validate_stops : forall E n p k o x u w,
  s_validate E = true -> s_clean E = true -> unreadable_record E x -> (exists q s, o = OSeq q s (x :: u)) \/ (exists q d, o = OMap q d (x :: u)) ->
  exists e w', save E n p k o w = (Exn e, w').
Proof.
  intros E n p k o x u w Hv Hc Hx Ho. destruct (save E n p k o w) as [[[o' j]|e] w'] eqn:H; [exfalso|eauto].
  unfold save in H. apply mbind_ok in H as (o1 & w0 & H1 & H). assert (o1 = o) by (destruct Ho as [(q & s & ->)|(q & d & ->)]; injection H1; congruence). subst o1.
  apply mbind_ok in H as (cx & w1 & _ & H). apply mbind_ok in H as (y & w2 & _ & H). apply mbind_ok in H as (dir & w3 & _ & H). apply mbind_ok in H as (nm & w4 & _ & H).
  cbn zeta in H. apply mbind_ok in H as (z & w5 & H & _). destruct (validated_stops E n cx false x u w4 o Hv Hc Hx Ho) as (e & w6 & Hs). unfold serialize in H. congruence.
Qed.

(** ** Examples *)
(** A list with a blob is saved; a program without the class loads it, deletes the item, and saves: the list is empty,
    the file is still there; with [validate] the program cannot save. *)
Definition orp_env (validate : bool) : senv :=
  let E := ex_env "auto" validate None in
  mkSenv (s_class E) (s_ser E) (fun _ => None) (s_write E) (s_read E) (s_uuid E) (s_float E) (s_cwd E) (s_retouch E) (s_validate E) (s_clean E) (s_suffix E) (s_limit E).
Definition orp_q : seqcfg := mkSeq false [] false None.
Definition orp_world : world := mkWorld (w_fs (snd (save (ex_env "auto" true None) 10 ex_opts ($"new") (OSeq orp_q [OAtom (AInt 1); rec_of (blob "one") "x"] []) ex_world))) [] [] 5 [].
Definition orp_file : loc := [$"proj"; $".dman"; $"gen"; $"new"; $"x.bin"].
Example C71_example :
  exists x w1, load (orp_env false) 10 ex_opts ($"new") None None orp_world = (Ok (OSeq orp_q [OAtom (AInt 1); x] []), w1) /\
    unreadable_record (orp_env false) x /\
    (exists rs, seq_ops (orp_env false) 10 (orp_q, [OAtom (AInt 1); x], []) [LDel (-1)] w1 = (Ok (rs, (orp_q, [OAtom (AInt 1)], [x])), w1)) /\
    (exists o' j w', save (orp_env false) 10 ex_opts ($"new") (OSeq orp_q [OAtom (AInt 1)] [x]) w1 = (Ok (o', j), w') /\
       file_at (w_fs w1) orp_file = Some (Text ($"one")) /\ file_at (w_fs w') orp_file = Some (Text ($"one")) /\ o' = OSeq orp_q [OAtom (AInt 1)] [] /\
       fst (load (orp_env false) 10 ex_opts ($"new") None None w') = Ok o') /\
    fst (save (orp_env true) 10 ex_opts ($"new") (OSeq orp_q [OAtom (AInt 1)] [x]) w1) = Exn ValidationError.
Proof.
  let v := eval vm_compute in (load (orp_env false) 10 ex_opts ($"new") None None orp_world) in
  match v with (Ok (OSeq _ [_; ?x] _), ?w1) => exists x, w1 end.
  split; [vm_compute; reflexivity|]. split; [do 8 eexists; split; cycle 1; [reflexivity|left; vm_compute; reflexivity]|]. split; [eexists; vm_compute; reflexivity|]. split; [|vm_compute; reflexivity].
  match goal with |- exists o' j w', save ?E ?n ?p ?k ?o ?w = _ /\ _ =>
    let v := eval vm_compute in (save E n p k o w) in match v with (Ok (?o1, ?j1), ?w2) => exists o1, j1, w2 end end.
  repeat split; vm_compute; reflexivity.
Qed.
Definition orp_p : mapcfg := mkMap false [] false false false.
Definition orp_dict : world := mkWorld (w_fs (snd (save (ex_env "auto" true None) 10 ex_opts ($"new") (OMap orp_p [($"a", rec_of (blob "one") "x"); ($"b", OAtom (AInt 1))] []) ex_world))) [] [] 5 [].
Example C71_dict_example :
  exists x w1, load (orp_env false) 10 ex_opts ($"new") None None orp_dict = (Ok (OMap orp_p [($"a", x); ($"b", OAtom (AInt 1))] []), w1) /\
    unreadable_record (orp_env false) x /\
    (exists rs, map_ops (orp_env false) 10 (orp_p, [($"a", x); ($"b", OAtom (AInt 1))], []) [DDel ($"a")] w1 = (Ok (rs, (orp_p, [($"b", OAtom (AInt 1))], [x])), w1)) /\
    (exists o' j w', save (orp_env false) 10 ex_opts ($"new") (OMap orp_p [($"b", OAtom (AInt 1))] [x]) w1 = (Ok (o', j), w') /\
       file_at (w_fs w1) orp_file = Some (Text ($"one")) /\ file_at (w_fs w') orp_file = Some (Text ($"one")) /\ o' = OMap orp_p [($"b", OAtom (AInt 1))] []) /\
    fst (save (orp_env true) 10 ex_opts ($"new") (OMap orp_p [($"b", OAtom (AInt 1))] [x]) w1) = Exn ValidationError.
Proof.
  let v := eval vm_compute in (load (orp_env false) 10 ex_opts ($"new") None None orp_dict) in
  match v with (Ok (OMap _ [(_, ?x); _] _), ?w1) => exists x, w1 end.
  split; [vm_compute; reflexivity|]. split; [do 8 eexists; split; cycle 1; [reflexivity|left; vm_compute; reflexivity]|]. split; [eexists; vm_compute; reflexivity|]. split; [|vm_compute; reflexivity].
  match goal with |- exists o' j w', save ?E ?n ?p ?k ?o ?w = _ /\ _ =>
    let v := eval vm_compute in (save E n p k o w) in match v with (Ok (?o1, ?j1), ?w2) => exists o1, j1, w2 end end.
  repeat split; vm_compute; reflexivity.
Qed.
Print Assumptions C71_unreadable_items_left.
Print Assumptions C71_unreadable_values_left.
Print Assumptions C71_validate_stops.
