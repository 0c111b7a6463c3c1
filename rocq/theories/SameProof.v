(** Serializing a model leaves it as it was in memory, up to the targets of its records. *)
From Coq Require Import List Ascii String Bool Arith ZArith Lia.
From Verif Require Import Base PosixModel FsModel PathModel SerialModel StoreModel StoreFrame StoreMount StoreSpec StoreLocal StorePlace
     StoreRecord RoundSpec KeepSpec SameSpec RoundProof ReplayProof DropProof DropSettled KeepProof PathSpec MountSpec DirSpec PosixProof FsProof DirProof TargetProof MountProof HistoryProof PathFacts SerialSpec SerialProof.
Import ListNotations.

Local Arguments str_eq_dec : simpl never.
Local Arguments atom_eq_dec : simpl never.

(** ** What a program sees *)
Section View.
Variable E : senv.
Variables WM WC : list obj -> list obj -> Prop.
Variable K : nat.
Local Notation same_object := (same_with WM WC).
Lemma content_same o o' w : same_object o o' ->
  (exists e w1, content_of E K o w = (Exn e, w1) /\ content_of E K o' w = (Exn e, w1)) \/
  exists a b a' b' w1, content_of E K o w = (Ok (a, b), w1) /\ content_of E K o' w = (Ok (a', b'), w1) /\ same_object a a'.
Proof.
  intros H. destruct H as [o|l l' H|d d' H|c fs fs' u u' Hu H|q s s' u u' Hu H|p s s' u u' Hu H|c c' t t' pre H _|ty tt b cx t pre].
  - destruct (content_of E K o w) as [[[a b]|e] w1]; [right|left; eauto]. exists a, b, a, b, w1. repeat split. constructor.
  - right. do 5 eexists. repeat split. constructor; assumption.
  - right. do 5 eexists. repeat split. constructor; assumption.
  - right. do 5 eexists. repeat split. constructor; assumption.
  - right. do 5 eexists. repeat split. constructor; assumption.
  - right. do 5 eexists. repeat split. constructor; assumption.
  - destruct H as [o|l l' H|d d' H|c fs fs' u u' Hu H|q s s' u u' Hu H|p s s' u u' Hu H|c c' t0 t0' pre' H Hsb|ty tt b cx t0 pre'];
      try (right; do 5 eexists; repeat split; constructor; assumption).
    destruct o; try (right; do 5 eexists; repeat split; constructor; assumption).
    unfold content_of. rewrite !mbind_run. destruct (rec_load E (depth E K) _ None w) as [[[[v c'] re']|e] w1]; [right|left; eauto].
    do 5 eexists. repeat split. constructor.
  - unfold content_of. rewrite !mbind_run. destruct (rec_load E (depth E K) _ None w) as [[[[v c'] re']|e] w1]; [right|left; eauto].
    do 5 eexists. repeat split. constructor.
Qed.
Lemma mapM_two {A A' C} (R : A -> A' -> Prop) (f : A -> M C) (f' : A' -> M C) l l' : Forall2 R l l' ->
  (forall a b, R a b -> forall w, f a w = f' b w) -> forall w, mapM f l w = mapM f' l' w.
Proof.
  intros H Hf. induction H as [|a b l l' Hab H IH]; intros w; [reflexivity|]. cbn [mapM]. rewrite !mbind_run, (Hf a b Hab).
  destruct (f' b w) as [[y|e] w1]; [|reflexivity]. rewrite !mbind_run, IH. reflexivity.
Qed.
Lemma assoc_two k (fs fs' : list (str * obj)) : Forall2 (fun a b => fst a = fst b /\ same_object (snd a) (snd b)) fs fs' ->
  match assoc k fs, assoc k fs' with Some v, Some v' => same_object v v' | None, None => True | _, _ => False end.
Proof.
  intros H. induction H as [|[x v] [x' v'] fs fs' [Hx Hv] H IH]; [exact I|]. cbn in Hx, Hv |- *. subst x'. destruct (str_eq_dec x k); assumption.
Qed.
Theorem view_same M : forall o o', same_object o o' -> forall w, view E K M o w = view E K M o' w.
Proof.
  induction M as [|M IH]; intros o o' H w; [reflexivity|]. cbn [view]. rewrite !mbind_run.
  destruct (content_same o o' w H) as [(e & w1 & -> & ->)|(a & b & a' & b' & w1 & -> & -> & Ha)]; [reflexivity|]. cbn [fst].
  assert (Hkv : forall {X} (d d' : list (X * obj)), Forall2 (fun a b => fst a = fst b /\ same_object (snd a) (snd b)) d d' ->
    forall w, mapM (fun kv => t <- view E K M (snd kv);; ret (fst kv, t)) d w = mapM (fun kv => t <- view E K M (snd kv);; ret (fst kv, t)) d' w).
  { intros X d d' Hd. apply (mapM_two _ _ _ _ _ Hd). intros [x v] [x' v'] [Hx Hv] w0. cbn in Hx, Hv |- *. subst x'. rewrite !mbind_run, (IH v v' Hv). reflexivity. }
  destruct Ha as [o0|l l' Hl|d d' Hl|c fs fs' u u' Hu Hl|q s s' u u' Hu Hl|p s s' u u' Hu Hl|c c' t t' pre Hl|ty tt b0 cx t pre].
  - reflexivity.
  - rewrite !mbind_run, (mapM_two _ _ _ _ _ Hl IH). reflexivity.
  - rewrite !mbind_run, (Hkv _ _ _ Hl). reflexivity.
  - destruct (k_kind (s_class E c)) as [|fds]; [reflexivity|]. rewrite !mbind_run.
    rewrite (mapM_two eq (fun f => match assoc (mf_name f) fs with Some v => t <- view E K M v;; ret (mf_name f, t) | None => raise AttributeError end)
                         (fun f => match assoc (mf_name f) fs' with Some v => t <- view E K M v;; ret (mf_name f, t) | None => raise AttributeError end)
                         (filter (fun f => negb (mf_noser f)) fds) (filter (fun f => negb (mf_noser f)) fds)).
    + reflexivity.
    + clear. induction (filter _ fds); constructor; auto.
    + intros f f' <- w0. pose proof (assoc_two (mf_name f) fs fs' Hl) as Hx. destruct (assoc (mf_name f) fs), (assoc (mf_name f) fs'); try contradiction; [|reflexivity].
      rewrite !mbind_run, (IH _ _ Hx). reflexivity.
  - rewrite !mbind_run, (mapM_two _ _ _ _ _ Hl IH). reflexivity.
  - rewrite !mbind_run, (Hkv _ _ _ Hl). reflexivity.
  - reflexivity.
  - reflexivity.
Qed.
End View.

(** ** Serialization *)
Section Same.
Variable E : senv.
Variable i : nat.
Variable D0 : str.
Hypothesis Hcwd : absolute (s_cwd E).
Hypothesis Hdir : absolute D0.
Hypothesis Hret : s_retouch E = $"auto" \/ s_retouch E = $"quit".
Hypothesis Hval : s_validate E = true.
Hypothesis Hreg : registered_classes E.
Hypothesis Huid : ordinary_uuids E.
Hypothesis Hfai : faithful_methods E.
Variable wb : world.
Variable U : list str -> list obj -> Prop.
(** ... and afterwards. *)
Variables VM VC : list str -> list obj -> Prop.
Hypothesis HVM : forall comps u n cx w r w1, s_clean E = true -> U comps u -> rm_all (depth E n) cx u w = (Ok r, w1) -> VM comps r.
Hypothesis HVM0 : forall comps u, s_clean E = false -> U comps u -> VM comps u.
Hypothesis HVC : forall comps, VC comps [].
Hypothesis HVC0 : forall comps u, s_clean E = false -> U comps u -> VC comps u.
(** What happens to the lists of deleted items. *)
Variables WM WC : list obj -> list obj -> Prop.
Hypothesis HM : forall comps u n cx w r w1, s_clean E = true -> U comps u -> rm_all (depth E n) cx u w = (Ok r, w1) -> WM u r.
Hypothesis HM0 : s_clean E = false -> forall u, WM u u.
Hypothesis HC : forall u, WC u [].
Hypothesis HC0 : s_clean E = false -> forall u, WC u u.
Local Notation same_object := (same_with WM WC).
Notation ok := (mnt_ok i D0).
Notation hold := (holds_with U E wb D0).
Notation held_after := (holds_two VM VC E wb D0).
Let Hun := Hun E Hret.

Lemma ser_ok n cx comps co o w r w' : sctx i comps cx -> ok w -> f_ser (depth E n) (Some cx) co o w = (r, w') -> ok w'.
Proof.
  intros Hs Hok H. destruct (depth_only E i D0 Hcwd Hdir Hun (fun _ => True) (fun _ _ => I) n) as (H1 & _).
  assert (Hp : forall c, Some cx = Some c -> exists comps, sctx i comps c) by (intros c Hc; inversion Hc; subst; eauto).
  pose proof (H1 (Some cx) co o Hp w Hok) as Hx. rewrite H in Hx. cbn [snd] in Hx. eapply only_ok; eassumption.
Qed.
Lemma placed_ordinary out cs n' c : places out (cs ++ [n']) -> ordinary E c out /\ forall sd, t_subdir out = Some sd \/ t_subdir out = None /\ sd = [] -> filter named_component (components sd) = cs.
Proof.
  intros (sd0 & nm & P1 & P2 & P3 & P4 & P5 & P6). destruct out as [sd st su]. cbn in P1. subst sd. unfold t_name in P2. cbn [t_stem t_suffix] in P2.
  destruct st as [st|]; [|discriminate]. destruct su as [su|]; [|discriminate]. injection P2 as <-. apply app_inj_tail in P6 as [-> ->]. split.
  - intros sd1 st1 su1 H1 H2 H3. cbn in H1, H2, H3. destruct H1 as [H1|[H1 _]]; [|discriminate]. destruct H2 as [H2|[H2 _]]; [|discriminate]. destruct H3 as [H3|[H3 _]]; [|discriminate].
    injection H1 as <-. injection H2 as <-. injection H3 as <-. auto.
  - intros sd1 [H1|[H1 _]]; [|discriminate]. cbn in H1. injection H1 as <-. reflexivity.
Qed.

Section Step.
Variable n : nat.
Let F := depth E n.
Definition Same (comps : list str) (o o' : obj) (w' : world) : Prop := same_object o o' /\ held_after comps o' /\ ok w'.
Hypothesis IH : forall o co comps cx w o' p w', hold comps o -> (co = true -> direct o) -> sctx i comps cx -> ok w ->
  f_ser F (Some cx) co o w = (Ok (o', p), w') -> Same comps o o' w'.

Lemma rec_same comps cx content t pre w o' q w' : loaded content ->
  (forall sd, t_subdir t = Some sd \/ t_subdir t = None /\ sd = [] -> hold (comps ++ filter named_component (components sd)) content) ->
  ordinary E content t -> sctx i comps cx -> ok w ->
  ser_rec E F (Some cx) content t pre None None w = (Ok (o', q), w') -> Same comps (ORec content t pre None None) o' w'.
Proof.
  intros Hld Hcs Ho Hs Hok H.
  assert (Hc0 : exists cs0, hold cs0 content) by (destruct (t_subdir t) as [sd|] eqn:Et; eexists; apply Hcs; eauto). destruct Hc0 as [cs0 Hc0].
  apply ser_rec_loaded in H as (dir & w0 & t' & w1 & out & we' & c' & _ & -> & H1 & H2 & -> & ->); [|assumption].
  assert (Hwr : (exists c d, content = OLeaf c d) \/ (direct content /\ is_storable E content = true)).
  { pose proof H2 as H3. apply ctx_write_gen in H3 as (p & local & nt & nm & w2 & _ & _ & _ & _ & [(_ & l & w3 & _ & Hw)|(_ & _ & Hv & _)]); [|congruence].
    unfold write_storable in Hw. destruct content; try discriminate Hw; try (left; eauto; fail);
      (right; split; [discriminate|]; destruct (is_storable E _); [reflexivity|discriminate]). }
  assert (Hwu : (exists c d, content = OLeaf c d) \/ is_storable E content = true) by tauto.
  destruct (rec_target_in E content t w t' w1 Ho (hold_usual E D0 wb U cs0 content Hc0 Hwu) H1) as (sd & cs & Hsd & Hp & Hrl).
  pose proof (Hcs sd Hsd) as Hc. rewrite <- Hrl in Hc.
  apply rec_target_still in H1 as (ku & -> & _). set (w1 := mkWorld (w_fs w) (w_mounts w) (w_inputs w) ku (w_log w)) in *.
  assert (Hok1 : ok w1) by exact Hok.
  destruct (ctx_write_inv E i D0 Hcwd Hdir Hun F cx comps t' cs content w1 out we' c' w' Hok1 Hs Hp H2)
    as (pp & u & n' & w2 & local & Hn' & Hg & Hok2 & Hpo & _ & Hsl & [(-> & Hw)|(_ & _ & Hv & _)]); [|congruence].
  assert (Hwok : forall l0 c0 wx uu wy, ok wx -> m_write E l0 c0 wx = (Ok uu, wy) -> ok wy).
  { intros l0 c0 wx uu wy [Ka Kb] Hm. apply m_write_ok in Hm as (W1 & _ & W3). split; [rewrite W1; exact Ka|apply W3; exact Kb]. }
  assert (Hmain : same_object content c' /\ held_after (comps ++ removelast cs) c' /\ ok w').
  { destruct Hwr as [(c & d & ->)|[Hdc Hst]].
    - unfold write_storable in Hw. destruct (s_write E c (List.length (w_log w2)) d) as [left e] eqn:Ew.
      apply mbind_ok in Hw as (uu & w3 & Hw & He). destruct e as [e|]; [discriminate|]. unfold ret in He. injection He as <- <-.
      split; [constructor|]. split; [inversion Hc; subst; eapply h_leaf; eassumption|]. destruct left as [x|]; [eapply Hwok; eassumption|]. unfold ret in Hw. injection Hw as _ <-. assumption.
    - unfold F in Hw. rewrite write_container in Hw by assumption. apply mbind_ok in Hw as (u1 & w3 & Hw1 & Hw). apply mbind_ok in Hw as ([o1 p1] & w4 & Hw2 & Hw).
      apply mbind_ok in Hw as (u3 & w5 & Hw3 & Hw). unfold ret in Hw. injection Hw as <- <-. pose proof (Hwok _ _ _ _ _ Hok2 Hw1) as Hok3.
      destruct (IH content true _ local w3 o1 p1 w4 Hc (fun _ => Hdc) Hsl Hok3 Hw2) as (S1 & S2 & S3). split; [assumption|]. split; [assumption|]. eapply Hwok; eassumption. }
  destruct Hmain as (M1 & M2 & M3). destruct (placed_ordinary out (removelast cs) n' c' Hpo) as [Po Ps].
    split; [apply so_rec; [assumption|]|].
    { unfold sub_of. rewrite Ps by (destruct (t_subdir out); auto). rewrite Hrl. destruct Hsd as [->|[-> ->]]; reflexivity. } split; [|assumption]. apply h_rec; [|assumption]. intros sd1 Hsd1. rewrite (Ps sd1 Hsd1). assumption.
Qed.
Lemma waiting_same comps cx ty path cx0 t pre w o' q w' : fspath (from_path path) = Ok path -> context_at E wb cx0 D0 comps -> sctx i comps cx -> ok w ->
  ser_rec E F (Some cx) (OUnloaded (Some ty) (from_path path) (join2 D0 (join_sep comps)) cx0) t pre None None w = (Ok (o', q), w') ->
  Same comps (ORec (OUnloaded (Some ty) (from_path path) (join2 D0 (join_sep comps)) cx0) t pre None None) o' w'.
Proof.
  intros Hfp Hcx Hs Hok H. pose proof Hok as [(m & Hm & Hmd & _) _]. pose proof Hs as (Hi & Hsub & _).
  assert (Hcd : ctx_dir cx w = (Ok (join2 D0 (join_sep comps)), w)).
  { unfold ctx_dir, m_dir_of. rewrite mbind_run, Hi, Hm, Hmd, Hsub. reflexivity. }
  unfold ser_rec, rec_store in H. rewrite mbind_run, mbind_run, Hcd in H. cbn zeta in H.
  destruct (str_eq_dec (join2 D0 (join_sep comps)) (join2 D0 (join_sep comps))) as [_|Hx]; [|congruence]. cbn [negb andb] in H. unfold ret in H.
  injection H as <- _ <-. split; [apply so_waiting|]. split; [|assumption]. apply h_waiting; assumption.
Qed.
Lemma rm_ok comps cx u v (b : bool) w r w1 : sctx i comps cx -> ok w -> (if b then rm_all F (Some cx) u else ret v) w = (Ok r, w1) -> ok w1.
Proof.
  intros (Hi & _) Hok H. destruct b.
  - destruct (rm_all_dropped E i D0 Hcwd Hdir Hret n cx u Hi w (Ok r) w1 H Hok) as (Hx & _). exact Hx.
  - unfold ret in H. injection H as <- <-. auto.
Qed.
Lemma items_same {A C} (f : A -> M C) (ob : A -> obj) (ob' : C -> obj) comps l :
  (forall a w y w', In a l -> ok w -> f a w = (Ok y, w') -> Same comps (ob a) (ob' y) w') ->
  forall w ys w', ok w -> mapM f l w = (Ok ys, w') -> Forall2 (fun a y => same_object (ob a) (ob' y) /\ held_after comps (ob' y)) l ys /\ ok w'.
Proof.
  induction l as [|a l IHl]; intros Hf w ys w' Hok H; cbn [mapM] in H.
  - unfold ret in H. injection H as <- <-. auto.
  - apply mbind_ok in H as (y & w1 & H1 & H). apply mbind_ok in H as (ys0 & w2 & H2 & H). unfold ret in H. injection H as <- <-.
    destruct (Hf a w y w1 (or_introl eq_refl) Hok H1) as (S1 & S2 & S3).
    destruct (IHl (fun a0 w0 y0 w9 Ha => Hf a0 w0 y0 w9 (or_intror Ha)) w1 ys0 w2 S3 H2) as [I1 I2]. split; [constructor; auto|assumption].
Qed.
Lemma item_same comps cx o w y w' : hold comps o -> sctx i comps cx -> ok w -> ser_item E F (Some cx) o w = (Ok y, w') -> Same comps o (fst y) w' /\ snd y <> None.
Proof.
  intros Hb Hs Hok H.
  assert (H' : (x <- f_ser F (Some cx) false o;; ret (fst x, Some (snd x))) w = (Ok y, w')).
  { unfold ser_item in H. destruct o; try exact H. inversion Hb; subst; cbn [rec_exists] in H; rewrite orb_true_r in H; exact H. }
  apply mbind_ok in H' as ([o1 p1] & w1 & H1 & H2). unfold ret in H2. injection H2 as <- <-. cbn [snd fst]. split; [|discriminate].
  apply (IH o false comps cx w o1 p1 w1 Hb); [discriminate|assumption|assumption|exact H1].
Qed.
Lemma items_named {X} (s : list (X * obj)) (ys : list obj) comps :
  Forall2 (fun o y => same_object o y /\ held_after comps y) (map snd s) ys ->
  Forall2 (fun a b => fst a = fst b /\ same_object (snd a) (snd b)) s (combine (map fst s) ys) /\
  (forall k x, In (k, x) (combine (map fst s) ys) -> held_after comps x) /\ map fst (combine (map fst s) ys) = map fst s.
Proof.
  revert ys. induction s as [|[k x] s IHs]; intros ys H; inversion H as [|? y ? ys0 [H1 H2] H3]; subst; cbn.
  - split; [constructor|]. split; [intros k x []|reflexivity].
  - destruct (IHs ys0 H3) as (I1 & I2 & I3). split; [constructor; [auto|assumption]|]. split; [|f_equal; assumption]. intros k0 x0 [Hx|Hx]; [injection Hx as <- <-; assumption|eauto].
Qed.
Lemma kept_none (ys : list (obj * option pser)) : Forall (fun y => snd y <> None) ys -> dangling ys = [].
Proof. induction 1 as [|[o [p|]] ys H1 H2 IH2]; cbn in *; [reflexivity|assumption|congruence]. Qed.
Lemma plain_same comps cx o w y w' : hold comps o -> sctx i comps cx -> ok w -> ser_plain_item E F (Some cx) o w = (Ok y, w') -> Same comps o (fst y) w'.
Proof.
  intros Hb Hs Hok H. unfold ser_plain_item in H. destruct (is_storable E o) eqn:Es.
  - apply mbind_ok in H as ([o1 p1] & w1 & H1 & H). unfold ret in H. injection H as <- <-. cbn [fst snd].
    assert (Hb1 : hold comps (fresh_record o)).
    { unfold fresh_record. apply h_rec; [|apply auto_ordinary; assumption].
      intros sd [Hsd|[_ ->]]; [cbn in Hsd; injection Hsd as <-|]; cbn; rewrite app_nil_r; exact Hb. }
    assert (Hx : Same comps (fresh_record o) o1 w1) by (apply (IH (fresh_record o) false comps cx w o1 p1 w1 Hb1); [discriminate|assumption|assumption|exact H1]).
    destruct Hx as (X1 & X2 & X3). unfold fresh_record in X1. inversion X1 as [|x1|x1|x1|x1|x1|c1 c' t1 t' pre1 S1 S2|ty tt b cx1 t1 pre1]; subst.
    + split; [constructor|]. split; [|assumption]. inversion X2 as [| | | | | | |cs1 c2 t2 pre2 Hc2 Ho2|cs1 ty path cx2 t2 pre2 Hp2 Hx2]; subst; [|inversion Hb].
      specialize (Hc2 [] (or_introl eq_refl)). cbn in Hc2. rewrite app_nil_r in Hc2. exact Hc2.
    + split; [assumption|]. split; [|assumption]. inversion X2 as [| | | | | | |cs1 c2 t2 pre2 Hc2 Ho2|cs1 ty path cx2 t2 pre2 Hp2 Hx2]; subst.
      * specialize (Hc2 (match t_subdir t' with Some sd => sd | None => [] end)). fold (sub_of t') in Hc2. rewrite S2 in Hc2. cbn in Hc2. rewrite app_nil_r in Hc2. apply Hc2.
        destruct (t_subdir t'); auto.
      * inversion S1; subst. inversion Hb.
    + inversion Hb.
  - destruct y as [o1 p1]. apply (IH o false comps cx w o1 p1 w' Hb); [discriminate|assumption|assumption|exact H].
Qed.
Definition upd (ks : list str) (fs fs' : list (str * obj)) : Prop :=
  Forall2 (fun a b => fst a = fst b /\ (snd b = snd a \/ In (fst a) ks /\ same_object (snd a) (snd b))) fs fs'.
Lemma upd_refl ks fs : upd ks fs fs.
Proof. induction fs; constructor; auto. Qed.
Lemma upd_set k v v' fs : assoc k fs = Some v -> same_object v v' -> upd [k] fs (assoc_set k v' fs).
Proof.
  intros Ha Hv. induction fs as [|[x y] fs IHf]; [discriminate|]. cbn in Ha |- *. destruct (str_eq_dec x k) as [->|].
  - injection Ha as ->. constructor; [cbn; auto|apply upd_refl].
  - constructor; [auto|apply IHf; assumption].
Qed.
Lemma upd_join k ks a b c : ~ In k ks -> upd [k] a b -> upd ks b c -> upd (k :: ks) a c.
Proof.
  intros Hk H1. revert c. induction H1 as [|x y a b [X1 X2] H1 IH1]; intros c H2; inversion H2 as [|? z ? c0 [Y1 Y2] H3]; subst; constructor; [|apply IH1; assumption].
  split; [congruence|]. destruct X2 as [X2|[[X2|[]] X3]].
  - destruct Y2 as [Y2|[Y2 Y3]]; [left; congruence|]. right. split; [right; congruence|]. rewrite X2 in Y3. assumption.
  - destruct Y2 as [Y2|[Y2 Y3]]; [|exfalso; apply Hk; congruence]. right. split; [left; assumption|]. rewrite Y2. assumption.
Qed.
Lemma upd_more k ks a b : upd ks a b -> upd (k :: ks) a b.
Proof. intros H. induction H as [|x y a b [X1 X2] H IH1]; constructor; [|assumption]. split; [assumption|]. destruct X2 as [|[]]; [auto|]. right. split; [right|]; assumption. Qed.
Lemma upd_same ks a b : upd ks a b -> Forall2 (fun a b => fst a = fst b /\ same_object (snd a) (snd b)) a b.
Proof. intros H. induction H as [|x y a b [X1 X2] H IH1]; constructor; [|assumption]. split; [assumption|]. destruct X2 as [->|[]]; [constructor|assumption]. Qed.
Lemma upd_assoc ks a b k : upd ks a b -> ~ In k ks -> assoc k b = assoc k a.
Proof.
  intros H Hk. induction H as [|[x v] [x' v'] a b [X1 X2] H IH1]; [reflexivity|]. cbn in X1, X2 |- *. subst x'. destruct (str_eq_dec x k) as [->|]; [|assumption].
  destruct X2 as [->|[]]; [reflexivity|contradiction].
Qed.
Lemma fields_same comps cx fds : sctx i comps cx -> NoDup (map mf_name fds) -> forall fs w fs' d w',
  (forall f v, In f fds -> mf_noser f = false -> assoc (mf_name f) fs = Some v ->
     hold comps v /\ (v = OAtom ANone -> mf_default f = None \/ mf_default f = Some (OAtom ANone))) ->
  ok w -> ser_fields_m F (Some cx) fds fs w = (Ok (fs', d), w') ->
  upd (map mf_name fds) fs fs' /\ ok w' /\
  (forall f v, In f fds -> mf_noser f = false -> assoc (mf_name f) fs' = Some v ->
     held_after comps v /\ (v = OAtom ANone -> mf_default f = None \/ mf_default f = Some (OAtom ANone))).
Proof.
  intros Hs. induction fds as [|f fds IHf]; intros Hnd fs w fs' d w' Hb Hok H.
  - injection H as <- _ <-. split; [apply upd_refl|]. split; [assumption|]. intros f v [].
  - cbn [map] in Hnd. inversion Hnd as [|? ? N1 N2]; subst. cbn [ser_fields_m] in H. cbn [map]. destruct (mf_noser f) eqn:En.
    + destruct (IHf N2 fs w fs' d w') as (G1 & G2 & G3); [intros f0 v Hf0; apply Hb; right; assumption|assumption|assumption|].
      split; [apply upd_more; assumption|]. split; [assumption|]. intros f0 v [<-|Hf0] Hno; [congruence|]. apply G3; assumption.
    + destruct (assoc (mf_name f) fs) as [v|] eqn:Ea; [|discriminate].
      destruct (Hb f v (or_introl eq_refl) En Ea) as [Hv Hdfl].
      assert (Hcase : v = OAtom ANone \/ (v <> OAtom ANone /\
         (x <- f_ser F (Some cx) false v;; y <- ser_fields_m F (Some cx) fds (assoc_set (mf_name f) (fst x) fs);; ret (fst y, (AStr (mf_name f), snd x) :: snd y)) w = (Ok (fs', d), w'))).
      { destruct v as [[| | | |]|l|dd|c x|c x u|q x u|q x u|? ? ? ? ?|? ? ? ?|?|?]; try (right; split; [discriminate|exact H]). left. reflexivity. }
      destruct Hcase as [-> | [Hnn H']].
      * destruct (IHf N2 fs w fs' d w') as (G1 & G2 & G3); [intros f0 v Hf0; apply Hb; right; assumption|assumption|assumption|].
        split; [apply upd_more; assumption|]. split; [assumption|]. intros f0 v [<-|Hf0] Hno Ha; [|apply G3; assumption].
        rewrite (upd_assoc _ _ _ _ G1 N1), Ea in Ha. injection Ha as <-. split; [constructor|assumption].
      * clear H. apply mbind_ok in H' as ([o1 p1] & w1 & H1 & H'). apply mbind_ok in H' as ([fs1 d1] & w2 & H2 & H'). unfold ret in H'. cbn [fst snd] in H', H2. injection H' as <- _ <-.
        destruct (IH v false comps cx w o1 p1 w1 Hv) as (S1 & S2 & S3); [discriminate|assumption|assumption|assumption|].
        assert (Hset : upd [mf_name f] fs (assoc_set (mf_name f) o1 fs)) by (eapply upd_set; eassumption).
        destruct (IHf N2 (assoc_set (mf_name f) o1 fs) w1 fs1 d1 w2) as (G1 & G2 & G3); [|assumption|assumption|].
        { intros f0 v0 Hf0 Hno Ha. apply Hb; [right; assumption|assumption|]. rewrite <- Ha. symmetry. apply (upd_assoc _ _ _ _ Hset). intros [Hx|[]]. apply N1. rewrite Hx. apply in_map. assumption. }
        split; [eapply upd_join; eassumption|]. split; [assumption|]. intros f0 v0 [<-|Hf0] Hno Ha; [|apply G3; assumption].
        rewrite (upd_assoc _ _ _ _ G1 N1) in Ha.
        assert (Ho : assoc (mf_name f) (assoc_set (mf_name f) o1 fs) = Some o1).
        { clear - Ea. induction fs as [|[x y] fs IHl]; [discriminate|]. cbn in Ea |- *. destruct (str_eq_dec x (mf_name f)) as [->|Hx]; cbn; [destruct (str_eq_dec (mf_name f) (mf_name f)); congruence|].
          destruct (str_eq_dec x (mf_name f)); [congruence|]. apply IHl. assumption. }
        rewrite Ho in Ha. injection Ha as <-. split; [assumption|]. intros ->. inversion S1; subst. congruence.
Qed.
Lemma step_same o co comps cx w o' p w' : hold comps o -> (co = true -> direct o) -> sctx i comps cx -> ok w ->
  ser_body E F (Some cx) co o w = (Ok (o', p), w') -> Same comps o o' w'.
Proof.
  intros Hb Hd Hs Hok H.
  inversion Hb as [cs0 a|cs0 l Hi|cs0 d Hi Hn|cs0 c d j ext ty Hk Ht|cs0 c fs uu fds Hk Hn Hu Hf|cs0 q s uu Hu Hi|cs0 q s uu Hu Hi Hn|cs0 content t pre Hc Ho|cs0 ty path cx0 t pre Hfp Hcx]; subst cs0 o.
  - cbn in H. injection H as <- <- <-. split; [constructor|]. split; [constructor|assumption].
  - cbn [ser_body] in H. unfold ser_list in H. apply mbind_ok in H as (xs & w1 & H1 & H). unfold ret in H. injection H as <- _ <-.
    destruct (items_same (ser_plain_item E F (Some cx)) (fun o => o) fst comps l) with (w := w) (ys := xs) (w' := w1) as [I1 I2]; [|assumption|assumption|].
    { intros a w0 y w9 Ha Hok0 Hy. eapply plain_same; eauto. }
    split; [|split; [|assumption]].
    + apply so_list. clear - I1. induction I1 as [|a y l ys [X1 X2] I1 IHi]; constructor; assumption.
    + apply h_list. intros x Hx. apply in_map_iff in Hx as (y & <- & Hy). clear - I1 Hy. induction I1 as [|a z l ys [X1 X2] I1 IHi]; [contradiction|]. destruct Hy as [<-|Hy]; auto.
  - cbn [ser_body] in H. unfold ser_dict in H. apply mbind_ok in H as (xs & w1 & H1 & H). unfold ret in H. injection H as <- _ <-.
    apply mapM_keyed_ok in H1 as (ys & H1 & -> & Hlen).
    destruct (items_same (ser_plain_item E F (Some cx)) (fun o => o) fst comps (map snd d)) with (w := w) (ys := ys) (w' := w1) as [I1 I2]; [|assumption|assumption|].
    { intros a w0 y w9 Ha Hok0 Hy. apply in_map_iff in Ha as ([k v] & <- & Ha). eapply plain_same; [apply (Hi k v Ha)|eassumption|eassumption|eassumption]. }
    assert (Hmap : map (fun kx : atom * (obj * pser) => (fst kx, fst (snd kx))) (combine (map fst d) ys) = combine (map fst d) (map fst ys)).
    { clear. revert ys. induction (map fst d) as [|k ks IHk]; intros [|y ys]; cbn; f_equal; auto. }
    rewrite Hmap. destruct (items_named d (map fst ys) comps) as (J1 & J2 & J3).
    { clear - I1. induction I1 as [|a y l ys [X1 X2] I1 IHi]; constructor; auto. }
    split; [apply so_dict; assumption|]. split; [|assumption]. apply h_dict; [|rewrite J3; assumption].
    intros k x Hx. split; [|eapply J2; eassumption]. assert (Hk : In k (map fst d)) by (rewrite <- J3; apply (in_map fst) in Hx; exact Hx).
    apply in_map_iff in Hk as ([k0 v0] & Hk & Hkv). cbn in Hk. subst k0. apply (Hi k v0 Hkv).
  - exfalso. cbn [ser_body ser_method] in H. apply mbind_ok in H as (u & w1 & H1 & _). apply invalid_ok in H1 as [_ Hv]. congruence.
  - destruct (k_ser (s_class E c)) as [nm|] eqn:En.
    2:{ exfalso. cbn [ser_body ser_method] in H. rewrite En in H. apply mbind_ok in H as (u & w1 & H1 & _). apply invalid_ok in H1 as [_ Hv]. congruence. }
    pose proof Hreg as [Hr _]. specialize (Hr c fds nm Hk En).
    assert (Hm : ser_method E F (Some cx) (OModel c fs uu) = Some (nm, ser_model E F (Some cx) c fds fs uu)) by (cbn [ser_method]; rewrite En, Hr, Hk; reflexivity).
    assert (Hq : exists q, ser_model E F (Some cx) c fds fs uu w = (Ok (o', q), w') /\ p = emit co (nm, q)).
    { eapply (run_method E Hval); [| | |exact Hm|exact H]; discriminate. }
    clear H. destruct Hq as (q & H & _). unfold ser_model in H. apply mbind_ok in H as (r1 & w1 & H1 & H).
    pose proof (rm_ok comps cx uu uu (s_clean E) w r1 w1 Hs Hok H1) as Hok1.
    apply mbind_ok in H as ([fs' dd] & w2 & H2 & H). unfold ret in H. cbn [fst snd] in H. injection H as <- _ <-.
    destruct (fields_same comps cx fds Hs Hn fs w1 fs' dd w2 Hf Hok1 H2) as (G1 & G2 & G3).
    assert (Hw : WM uu r1) by (case_eq (s_clean E); intros Ec; rewrite Ec in H1; [eapply HM; eassumption|unfold ret in H1; injection H1 as <- _; apply HM0; assumption]).
    split; [apply so_model; [exact Hw|eapply upd_same; eassumption]|]. split; [|assumption].
    assert (Hv : VM comps r1) by (case_eq (s_clean E); intros Ec; rewrite Ec in H1; [eapply HVM; eassumption|unfold ret in H1; injection H1 as <- _; apply HVM0; assumption]).
    eapply h_model; eassumption.
  - eapply (run_method E Hval) in H as (p1 & H & _); [|discriminate|discriminate|discriminate|cbn [ser_method]; reflexivity].
    unfold ser_seq in H. apply mbind_ok in H as (r1 & w1 & H1 & H). pose proof (rm_ok comps cx uu [] (s_clean E) w r1 w1 Hs Hok H1) as Hok1.
    apply mbind_ok in H as (ys & w2 & H2 & H).
    destruct (items_same (fun o => ser_item E F (Some cx) o) (fun o => o) fst comps s) with (w := w1) (ys := ys) (w' := w2) as [I1 I2]; [|assumption|exact H2|].
    { intros a w0 y w9 Ha Hok0 Hy. eapply (item_same comps cx a w0 y w9); eauto. }
    apply mbind_ok in H as (r2 & w3 & H3 & H). unfold ret in H. injection H as <- _ <-.
    assert (Hd0 : dangling ys = []).
    { apply kept_none. clear - H2 Hi Hok1 Hs IH Hreg Hval Hcwd Hdir Hret. revert w1 ys w2 Hok1 H2. induction s as [|x s IHs]; intros w1 ys w2 Hok1 H2; cbn [mapM] in H2; [unfold ret in H2; injection H2 as <- _; constructor|].
      apply mbind_ok in H2 as (y & w4 & H4 & H2). apply mbind_ok in H2 as (ys0 & w5 & H5 & H2). unfold ret in H2. injection H2 as <- _.
      destruct (item_same comps cx x w1 y w4 (Hi x (or_introl eq_refl)) Hs Hok1 H4) as [(_ & _ & Hok4) Hy]. constructor; [assumption|]. eapply IHs; [|exact Hok4|exact H5]. intros z Hz. apply Hi. right. assumption. }
    rewrite Hd0 in H3. pose proof (rm_ok comps cx [] [] (s_clean E) w2 r2 w3 Hs I2 H3) as Hok3.
    split; [|split; [|assumption]].
    + apply so_seq; [case_eq (s_clean E); intros Ec; auto|]. clear - I1. induction I1 as [|a y l ys [X1 X2] I1 IHi]; constructor; assumption.
    + apply h_seq; [case_eq (s_clean E); intros Ec; auto|]. intros x Hx. apply in_map_iff in Hx as (y & <- & Hy). clear - I1 Hy. induction I1 as [|a z l ys [X1 X2] I1 IHi]; [contradiction|]. destruct Hy as [<-|Hy]; auto.
  - eapply (run_method E Hval) in H as (p1 & H & _); [|discriminate|discriminate|discriminate|cbn [ser_method]; reflexivity].
    unfold ser_map in H. apply mbind_ok in H as (r1 & w1 & H1 & H). pose proof (rm_ok comps cx uu [] true w r1 w1 Hs Hok H1) as Hok1.
    apply mbind_ok in H as (xs & w2 & H2 & H). apply mapM_keyed_ok in H2 as (ys & H2 & -> & Hlen).
    destruct (items_same (ser_item E F (Some cx)) (fun o => o) fst comps (map snd s)) with (w := w1) (ys := ys) (w' := w2) as [I1 I2]; [|assumption|assumption|].
    { intros a w0 y w9 Ha Hok0 Hy. apply in_map_iff in Ha as ([k v] & <- & Ha). eapply (item_same comps cx v w0 y w9); eauto. }
    apply mbind_ok in H as (r2 & w3 & H3 & H). unfold ret in H. injection H as <- _ <-. rewrite combine_snd in H3 by assumption.
    assert (Hi' : forall x, In x (map snd s) -> hold comps x) by (intros x Hx; apply in_map_iff in Hx as ([k v] & <- & Hx); eapply Hi; eassumption).
    assert (Hd0 : dangling ys = []).
    { apply kept_none. clear - H2 Hi' Hok1 Hs IH Hreg Hval Hcwd Hdir Hret. revert w1 ys w2 Hok1 H2. induction (map snd s) as [|x l IHs]; intros w1 ys w2 Hok1 H2; cbn [mapM] in H2; [unfold ret in H2; injection H2 as <- _; constructor|].
      apply mbind_ok in H2 as (y & w4 & H4 & H2). apply mbind_ok in H2 as (ys0 & w5 & H5 & H2). unfold ret in H2. injection H2 as <- _.
      destruct (item_same comps cx x w1 y w4 (Hi' x (or_introl eq_refl)) Hs Hok1 H4) as [(_ & _ & Hok4) Hy]. constructor; [assumption|]. eapply IHs; [|exact Hok4|exact H5]. intros z Hz. apply Hi'. right. assumption. }
    rewrite Hd0 in H3. pose proof (rm_ok comps cx [] [] (s_clean E) w2 r2 w3 Hs I2 H3) as Hok3.
    assert (Hmap : map (fun kx : str * (obj * option pser) => (fst kx, fst (snd kx))) (combine (map fst s) ys) = combine (map fst s) (map fst ys)).
    { clear. revert ys. induction (map fst s) as [|k ks IHk]; intros [|y ys]; cbn; f_equal; auto. }
    rewrite Hmap. destruct (items_named s (map fst ys) comps) as (J1 & J2 & J3).
    { clear - I1. induction I1 as [|a y l ys [X1 X2] I1 IHi]; constructor; auto. }
    split; [apply so_map; [apply HC|assumption]|]. split; [|assumption]. apply h_map; [apply HVC|exact J2|rewrite J3; assumption].
  - eapply (run_method E Hval) in H as (p1 & H & _); [|discriminate|discriminate|discriminate|cbn [ser_method]; reflexivity].
    assert (Hld : loaded content). { intros ty tt b c ->. destruct (t_subdir t) as [sd|] eqn:Et; [specialize (Hc sd (or_introl eq_refl))|specialize (Hc [] (or_intror (conj eq_refl eq_refl)))]; inversion Hc. }
    eapply rec_same; eassumption.
  - eapply (run_method E Hval) in H as (p1 & H & _); [|discriminate|discriminate|discriminate|cbn [ser_method]; reflexivity].
    eapply waiting_same; eassumption.
Qed.
End Step.
Theorem ser_same n : forall o co comps cx w o' p w', hold comps o -> (co = true -> direct o) -> sctx i comps cx -> ok w ->
  f_ser (depth E n) (Some cx) co o w = (Ok (o', p), w') -> Same comps o o' w'.
Proof.
  induction n as [|n IH]; intros o co comps cx w o' p w' Hb Hd Hs Hok H; [discriminate|].
  apply (step_same n IH o co comps cx w o' p w' Hb Hd Hs Hok H).
Qed.
End Same.
