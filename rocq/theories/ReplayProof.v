(** Reading the same files again gives the same objects. *)
From Coq Require Import List Ascii String Bool Arith ZArith Lia.
From Verif Require Import Base PosixModel FsModel PathModel SerialModel StoreModel StoreFrame StoreMount StoreSpec StoreLocal StorePlace
     StoreRecord RoundSpec KeepSpec RoundProof PathSpec MountSpec DirSpec PosixProof FsProof DirProof TargetProof MountProof HistoryProof PathFacts SerialSpec SerialProof.
Import ListNotations.

Local Arguments str_eq_dec : simpl never.
Local Arguments atom_eq_dec : simpl never.

(** ** Objects that differ in the mount their waiting records belong to *)
Inductive alike (j j2 : nat) : obj -> obj -> Prop :=
| a_atom a : alike j j2 (OAtom a) (OAtom a)
| a_list l l' : Forall2 (alike j j2) l l' -> alike j j2 (OList l) (OList l')
| a_dict ks l l' : Forall2 (alike j j2) l l' -> List.length ks = List.length l -> alike j j2 (ODict (combine ks l)) (ODict (combine ks l'))
| a_leaf c d : alike j j2 (OLeaf c d) (OLeaf c d)
| a_model c ks l l' u : Forall2 (alike j j2) l l' -> List.length ks = List.length l -> alike j j2 (OModel c (combine ks l) u) (OModel c (combine ks l') u)
| a_seq q l l' u : Forall2 (alike j j2) l l' -> alike j j2 (OSeq q l u) (OSeq q l' u)
| a_map p ks l l' u : Forall2 (alike j j2) l l' -> List.length ks = List.length l -> alike j j2 (OMap p (combine ks l) u) (OMap p (combine ks l') u)
| a_rec c c' t pre we re : alike j j2 c c' -> alike j j2 (ORec c t pre we re) (ORec c' t pre we re)
| a_wait ty t base comps cx cx2 : sctx j comps cx -> sctx j2 comps cx2 -> alike j j2 (OUnloaded ty t base cx) (OUnloaded ty t base cx2).

Lemma alike_refl j j2 o : in_memory o -> alike j j2 o o.
Proof.
  induction 1 as [a|l H IH|d H IH|c d|c fs u H IH|q s u H IH|p s u H IH|c t pre we re H IH]; try constructor; try assumption.
  - clear H. induction l as [|x l IHl]; constructor; [apply IH; left; reflexivity|apply IHl; intros y Hy; apply IH; right; assumption].
  - rewrite (split_pairs d). constructor; [|rewrite !map_length; reflexivity]. clear H.
    induction d as [|[k x] d IHd]; constructor; [eapply IH; left; reflexivity|apply IHd; intros k' y Hy; eapply IH; right; eassumption].
  - rewrite (split_pairs fs). constructor; [|rewrite !map_length; reflexivity]. clear H.
    induction fs as [|[k x] d IHd]; constructor; [eapply IH; left; reflexivity|apply IHd; intros k' y Hy; eapply IH; right; eassumption].
  - clear H. induction s as [|x l IHl]; constructor; [apply IH; left; reflexivity|apply IHl; intros y Hy; apply IH; right; assumption].
  - rewrite (split_pairs s). constructor; [|rewrite !map_length; reflexivity]. clear H.
    induction s as [|[k x] d IHd]; constructor; [eapply IH; left; reflexivity|apply IHd; intros k' y Hy; eapply IH; right; eassumption].
Qed.
Lemma alike_storable E j j2 o o' : alike j j2 o o' -> is_storable E o = is_storable E o'.
Proof. intros H. inversion H; reflexivity. Qed.
Lemma lookup_dir l : forall n x r, lookup n (l ++ x :: r) <> None -> is_dir n l = true.
Proof.
  intros n x r H. unfold is_dir. rewrite lookup_app in H. destruct (lookup n l) as [[|]|]; [exfalso; apply H; reflexivity|reflexivity|exfalso; apply H; reflexivity].
Qed.

Definition suffix (w w' : world) : Prop := exists evs, w_log w' = evs ++ w_log w.
Definition calm_rel (w w' : world) : Prop := quiet w w' /\ suffix w w' /\ List.length (w_mounts w') = List.length (w_mounts w) /\ (well_formed (w_fs w) -> well_formed (w_fs w')).
Lemma calm_rel_refl w : calm_rel w w.
Proof. split; [apply quiet_refl|]. split; [exists []; reflexivity|auto]. Qed.
Lemma calm_rel_trans a b c : calm_rel a b -> calm_rel b c -> calm_rel a c.
Proof.
  intros (Q1 & (e1 & S1) & L1 & W1) (Q2 & (e2 & S2) & L2 & W2). split; [eapply quiet_trans; eassumption|]. split; [|split; [congruence|auto]].
  exists (e2 ++ e1). rewrite S2, S1, app_assoc. reflexivity.
Qed.
Lemma calm_logged ev w : calm_rel w (logged ev w).
Proof. split; [split; [reflexivity|intros j D1 _ H; exact H]|]. split; [exists [ev]; reflexivity|auto]. Qed.
Lemma calm_prepare E jj p w r w' : absolute (s_cwd E) -> m_prepare E jj p (Some ($"_ignore")) w = (r, w') -> calm_rel w w'.
Proof.
  intros Hc H. split; [split|split; [|split]].
  - intros q. apply m_prepare_inv in H. destruct H as [Hl|Hn|m r fs m' inp Hm Hp]; [reflexivity|reflexivity|]. cbn [w_fs]. eapply prepare_files; eassumption.
  - intros j D1 HD1 Hok. assert (Ho : only j D1 (fun _ => True) w w').
    { eapply (only_prepare E j D1 Hc HD1 (fun _ => True) jj p (Some ($"_ignore"))); [intros _; right; right; right; left; reflexivity|exact H]. }
    apply Ho. exact Hok.
  - apply m_prepare_inv in H. destruct H as [Hl|Hn|m r fs m' inp Hm Hp]; [exists []|exists [EvPrepare jj p]|exists [EvPrepare jj p]]; reflexivity.
  - apply m_prepare_inv in H. destruct H as [Hl|Hn|m r fs m' inp Hm Hp]; [reflexivity|reflexivity|]. cbn [w_mounts]. apply set_nth_length.
  - apply m_prepare_inv in H. destruct H as [Hl|Hn|m r fs m' inp Hm Hp]; [auto|auto|]. cbn [w_fs]. eapply prepare_wf; eassumption.
Qed.

Section Calm.
Variable E : senv.
Hypothesis Hcwd : absolute (s_cwd E).
Variable top : nat.
Definition few (w : world) : Prop := List.length (w_mounts w) <= top.
Definition calm {A} (m : M A) : Prop := pres few calm_rel m.
Lemma few_calm a b : few a -> calm_rel a b -> few b.
Proof. intros H (_ & _ & L & _). unfold few in *. congruence. Qed.
Lemma calm_top_prepare p : calm (m_prepare E top p None).
Proof.
  intros w Hw. destruct (m_prepare E top p None w) as [r w'] eqn:H. apply m_prepare_inv in H. destruct H as [Hl|Hn|m r fs m' inp Hm Hp]; cbn [snd].
  - apply calm_rel_refl.
  - apply calm_logged.
  - exfalso. assert (Hn : nth_error (w_mounts w) top = None) by (apply nth_error_None; exact Hw). congruence.
Qed.
Lemma calm_top_remove p : calm (m_remove E top p).
Proof.
  intros w Hw. destruct (m_remove E top p w) as [r w'] eqn:H. apply m_remove_inv in H. destruct H as [Hl|Hn|m r fs m' Hm Hp]; cbn [snd].
  - apply calm_rel_refl.
  - apply calm_logged.
  - exfalso. assert (Hn : nth_error (w_mounts w) top = None) by (apply nth_error_None; exact Hw). congruence.
Qed.
Lemma calm_uuid : calm (m_uuid E).
Proof. intros w _. split; [split; [reflexivity|intros j D1 _ H; exact H]|]. split; [exists []; reflexivity|auto]. Qed.
Lemma calm_read l : calm (m_read E l).
Proof. intros w _. destruct (m_read E l w) as [r w'] eqn:H. apply m_read_inv in H as [[_ ->]|[-> _]]; [apply calm_rel_refl|apply calm_logged]. Qed.
Lemma calm_ign j p : calm (m_prepare E j p (Some ($"_ignore"))).
Proof. intros w _. destruct (m_prepare E j p _ w) eqn:H. eapply calm_prepare; eassumption. Qed.
Ltac parts := first [exact calm_rel_refl|exact calm_rel_trans|exact few_calm|exact calm_uuid|exact calm_read|exact calm_ign|exact calm_top_prepare|exact calm_top_remove].
Lemma fns_calm K : pres_fns few calm_rel top (fun _ => False) (depth E K).
Proof.
  apply depth_pres with (W := fun _ => False); try parts.
  - intros c [].
  - intros l c [].
  - intros cx t w local nt w' [].
Qed.
Lemma calm_de K cx x p : calm (f_de (depth E K) cx x p). Proof. apply (fns_calm K). Qed.
Lemma calm_ctx_read K cx t ty : calm (ctx_read E (depth E K) cx t ty).
Proof.
  eapply (pres_ctx_read E few calm_rel) with (i := top) (S := fun _ => False); try parts; try (apply fns_calm).
  all: try (intros; contradiction).
Qed.
Lemma calm_ret {A} (a : A) : calm (ret a). Proof. apply pres_ret. exact calm_rel_refl. Qed.
Lemma calm_raise {A} e : calm (@raise A e). Proof. apply pres_raise. exact calm_rel_refl. Qed.
Lemma calm_lift {A} (r : res A) : calm (lift r). Proof. apply pres_lift. exact calm_rel_refl. Qed.
Lemma calm_bind {A B} (m : M A) (f : A -> M B) : calm m -> (forall a, calm (f a)) -> calm (mbind m f).
Proof. apply pres_bind; [exact calm_rel_trans|exact few_calm]. Qed.
Lemma calm_mapM {A B} (f : A -> M B) l : (forall x, In x l -> calm (f x)) -> calm (mapM f l).
Proof. apply pres_mapM; parts. Qed.
End Calm.

(** ** Replaying *)
Section Replay.
Variables E E2 : senv.
Variable D0 : str.
Hypothesis Hcwd : absolute (s_cwd E).
Hypothesis Hdir : absolute D0.
Hypothesis Hsame : same_code E E2.
Hypothesis Hlim : s_limit E2 = None.
Hypothesis Hval : s_validate E = true.
Hypothesis Hdet : reads_determined E.
Hypothesis Hdef : plain_defaults E.
Variables j j2 : nat.
Variable G : loc -> Prop.
Variable top : nat.
Let Hcwd2 : absolute (s_cwd E2). Proof. destruct Hsame as (_ & _ & _ & _ & ->). exact Hcwd. Qed.
Let D := location (s_cwd E) D0.

Definition agree (w w2 : world) : Prop := forall r c, G (D ++ r) -> file_at (w_fs w) (D ++ r) = Some c -> file_at (w_fs w2) (D ++ r) = Some c.
Definition reads (w w' : world) : Prop := forall l, happened w w' (EvRead l) -> G l.
Definition replays {A B} (Q : A -> B -> Prop) (m : M A) (m2 : M B) : Prop :=
  forall w a w1 w2, few top w -> mnt_ok j D0 w -> mnt_ok j2 D0 w2 -> agree w w2 -> m w = (Ok a, w1) -> reads w w1 ->
  exists b w2', m2 w2 = (Ok b, w2') /\ Q a b /\ quiet w2 w2'.

Lemma reads_split a b c : suffix a b -> suffix b c -> reads a c -> reads a b /\ reads b c.
Proof.
  intros [e1 H1] [e2 H2] H. split; intros l (e & He & Hin); apply H.
  - exists (e2 ++ e1). rewrite H2, H1, app_assoc. split; [reflexivity|]. rewrite H1 in He. apply app_inv_tail in He. subst e. apply in_or_app. auto.
  - exists (e2 ++ e1). rewrite H2, H1, app_assoc. split; [reflexivity|]. rewrite H2 in He. apply app_inv_tail in He. subst e. apply in_or_app. auto.
Qed.
Lemma agree_quiet w1 w1' w2 w2' : quiet w1 w1' -> quiet w2 w2' -> agree w1 w2 -> agree w1' w2'.
Proof. intros [H1 _] [H2 _] H l c Hl Hf. rewrite H2. apply H; [assumption|]. rewrite <- H1. assumption. Qed.
Lemma replays_bind {A B A' B'} (Q : A -> A' -> Prop) (Q' : B -> B' -> Prop) m m2 (f : A -> M B) (f2 : A' -> M B') :
  calm top m -> (forall a, calm top (f a)) -> replays Q m m2 -> (forall a a', Q a a' -> replays Q' (f a) (f2 a')) ->
  replays Q' (mbind m f) (mbind m2 f2).
Proof.
  intros Cm Cf Hm Hf w b w1 w2 Hw Hok Hok2 Hag H Hr. apply mbind_ok in H as (a & wa & H1 & H2).
  pose proof (Cm w Hw) as Ca. rewrite H1 in Ca. cbn [snd] in Ca. pose proof (few_calm top w wa Hw Ca) as Hwa.
  pose proof (Cf a wa Hwa) as Cb. rewrite H2 in Cb. cbn [snd] in Cb. destruct Ca as (Qa & Sa & La), Cb as (Qb & Sb & Lb).
  destruct (reads_split w wa w1 Sa Sb Hr) as [Hra Hrb].
  destruct (Hm w a wa w2 Hw Hok Hok2 Hag H1 Hra) as (a' & w2a & K1 & K2 & K3).
  destruct (Hf a a' K2 wa b w1 w2a Hwa) as (b' & w2b & L1 & L2 & L3);
    [eapply quiet_ok; eassumption|eapply quiet_ok; eassumption|eapply agree_quiet; eassumption|assumption|assumption|].
  exists b', w2b. split; [rewrite mbind_run, K1; exact L1|]. split; [assumption|eapply quiet_trans; eassumption].
Qed.
Lemma replays_ret {A B} (Q : A -> B -> Prop) a b : Q a b -> replays Q (ret a) (ret b).
Proof. intros H w x w1 w2 _ _ _ _ Hx _. injection Hx as <- <-. exists b, w2. split; [reflexivity|]. split; [assumption|apply quiet_refl]. Qed.
Lemma replays_raise {A B} (Q : A -> B -> Prop) e m2 : replays Q (raise e) m2.
Proof. intros w x w1 w2 _ _ _ _ Hx _. discriminate. Qed.
Lemma replays_mapM {A B A' B'} (R : A -> A' -> Prop) (Q : B -> B' -> Prop) (f : A -> M B) (f2 : A' -> M B') l l' :
  (forall x, calm top (f x)) -> (forall x x', R x x' -> replays Q (f x) (f2 x')) -> Forall2 R l l' -> replays (Forall2 Q) (mapM f l) (mapM f2 l').
Proof.
  intros Cf Hf. induction 1 as [|x x' l l' Hx Hl IH]; [apply replays_ret; constructor|]. cbn [mapM].
  eapply replays_bind; [apply Cf| |apply Hf; exact Hx|].
  - intros a. apply calm_bind; [apply calm_mapM; intros y _; apply Cf|intros; apply calm_ret].
  - intros a a' Ha. cbn beta. eapply replays_bind; [apply calm_mapM; intros y _; apply Cf|intros; apply calm_ret|exact IH|].
    intros b b' Hb. apply replays_ret. constructor; assumption.
Qed.
Lemma replays_mono {A B} (Q Q' : A -> B -> Prop) m m2 : (forall a b, Q a b -> Q' a b) -> replays Q m m2 -> replays Q' m m2.
Proof. intros HQ H w a w1 w2 H1 H2 H3 H4 H5 H6. destruct (H w a w1 w2 H1 H2 H3 H4 H5 H6) as (b & w2' & K1 & K2 & K3). exists b, w2'. auto. Qed.
Lemma forall2_same {A} (R : A -> A -> Prop) l : (forall x, R x x) -> Forall2 R l l.
Proof. intros H. induction l; constructor; auto. Qed.

(** One read. *)
Lemma prepare_replay p u w wa w2 : mnt_ok j D0 w -> mnt_ok j2 D0 w2 -> m_prepare E j p (Some ($"_ignore")) w = (Ok u, wa) ->
  (exists sd, t_subdir u = Some sd /\ is_dir (w_fs wa) (os_loc (s_cwd E) (join2 D0 sd)) = true) /\
  ((forall sd, t_subdir u = Some sd -> is_dir (w_fs w2) (os_loc (s_cwd E) (join2 D0 sd)) = true) ->
   exists w2a, m_prepare E2 j2 p (Some ($"_ignore")) w2 = (Ok u, w2a)).
Proof.
  intros [(m & Hm & Hmd & Ht) Hw] [(m2 & Hm2 & Hmd2 & Ht2) Hw2] H. apply m_prepare_inv in H.
  inversion H as [| |m0 r fs m' inp Hm0 Hp Hr Hwa]. clear H. subst r wa. rewrite Hm in Hm0. injection Hm0 as <-.
  assert (Hc2 : s_cwd E2 = s_cwd E) by apply Hsame.
  unfold prepare in Hp. rewrite Hmd in Hp. destruct (normalize (s_cwd E) D0 p true) as [t0|e] eqn:En; [|discriminate].
  assert (Hreg : forall conf inp0 touched x, touched_ok touched -> register conf (Some ($"_ignore")) inp0 touched t0 = Ok x ->
             exists touched', x = (t0, touched', inp0)).
  { intros conf inp0 touched x Htk Hx. destruct (in_touched t0 touched) eqn:Ei.
    - assert (Hn : named t0). { unfold normalize in En. destruct (mount_abspath _ _ _ _); [|discriminate]. cbn [bind] in En. destruct (relpath _ _ _); [|discriminate]. cbn [bind] in En. injection En as <-. apply from_path_named. }
      rewrite register_ignore_touched in Hx; [|assumption|assumption|right; right; left; reflexivity]. injection Hx as <-. eauto.
    - rewrite register_fresh in Hx by assumption. injection Hx as <-. eauto. }
  destruct (register (s_retouch E) (Some ($"_ignore")) (w_inputs w) (m_touched m) t0) as [[[t' touched'] inp']|e] eqn:Er; [|discriminate].
  destruct (Hreg _ _ _ _ Ht Er) as (tt' & Hx). injection Hx as -> -> ->.
  assert (Hreg2 : exists touched2, register (s_retouch E2) (Some ($"_ignore")) (w_inputs w2) (m_touched m2) t0 = Ok (t0, touched2, w_inputs w2)).
  { destruct (in_touched t0 (m_touched m2)) eqn:Ei; [|eexists; apply register_fresh; assumption].
    assert (Hn : named t0). { unfold normalize in En. destruct (mount_abspath _ _ _ _); [|discriminate]. cbn [bind] in En. destruct (relpath _ _ _); [|discriminate]. cbn [bind] in En. injection En as <-. apply from_path_named. }
    eexists. apply register_ignore_touched; [assumption|assumption|right; right; left; reflexivity]. }
  destruct Hreg2 as [touched2 Hreg2]. destruct (t_subdir t0) as [sd|] eqn:Esd; [|discriminate].
  assert (u = t0 /\ is_dir fs (os_loc (s_cwd E) (join2 D0 sd)) = true) as [-> Hd].
  { cbn zeta in Hp. destruct (is_dir (w_fs w) _) eqn:Ed; [injection Hp as <- <- _ _; auto|].
    destruct (makedirs (w_fs w) _) as [fs1|] eqn:Em; [|discriminate]. injection Hp as <- <- _ _. split; [reflexivity|].
    rewrite (makedirs_is_dir _ _ _ Em). assert (Hpre : is_prefix (os_loc (s_cwd E) (join2 D0 sd)) (os_loc (s_cwd E) (join2 D0 sd)) = true) by (apply is_prefix_iff; exists []; rewrite app_nil_r; reflexivity). rewrite Hpre. apply orb_true_r. }
  split; [exists sd; auto|]. intros Hd2. specialize (Hd2 sd Esd). unfold m_prepare. rewrite op_free by assumption. cbn [logged w_mounts w_fs w_inputs].
  rewrite Hm2. unfold prepare. rewrite Hmd2, Hc2, En, Hreg2, Esd, Hd2. eauto.
Qed.

(** A successful read: where, what, and in which context the contents are taken apart. *)
Lemma read_inv K cx comps t ty w o w1 : mnt_ok j D0 w -> sctx j comps cx -> ctx_read E (depth E K) cx t ty w = (Ok o, w1) ->
  exists p u local nt comps' l x wa,
    ctx_absolute cx t = Ok p /\ (exists q, fspath p = Ok q /\ m_prepare E j q (Some ($"_ignore")) w = (Ok u, wa)) /\
    ctx_prepare E cx t (Some ($"_ignore")) w = (Ok (local, nt), wa) /\ sctx j comps' local /\
    (exists rest, rel_target u rest /\ comps' = match removelast rest with [] => comps | l => l end /\
       t_subdir nt = Some [] /\ t_name nt = Ok (match rest with [] => dot | _ => last rest [] end) /\
       l = D ++ comps' ++ last_comp (match rest with [] => dot | _ => last rest [] end)) /\
    lookup (w_fs wa) l = Some (File x) /\
    ((exists c d, ty = Some c /\ exists cl, sto_ty E c = Some (STLeaf cl) /\ (forall k, s_read E cl k x = Ok d) /\ o = OLeaf cl d /\ w1 = logged (EvRead l) wa) \/
     (exists c d js, ty = Some c /\ sto_ty E c = Some (STObj d) /\ x = Json js /\ f_de (depth E K) (Some local) (Some d) (of_json js) (logged (EvRead l) wa) = (Ok o, w1))).
Proof.
  intros Hok Hs H. unfold ctx_read in H. apply mbind_ok in H as (r & wr & H & Hr). apply attempt_ok in H.
  assert (r = Ok o /\ wr = w1) as [-> ->].
  { destruct r as [o0|e]; [unfold ret in Hr; injection Hr as -> ->; auto|]. exfalso.
    assert (Hinv : forall (k : M obj), (_ <- invalid_found E;; k) wr = (Ok o, w1) -> False).
    { intros k Hk. apply mbind_ok in Hk as (uu & wu & Hu & _). apply invalid_ok in Hu as [_ Hu]. congruence. }
    destruct e; try (cbn [is_ser_error] in Hr; first [discriminate|eapply Hinv; exact Hr]). }
  clear Hr. apply mbind_ok in H as ([local nt] & wa & Hp & H). apply mbind_ok in H as (l & wb & Hl & H).
  assert (Hch : In (eff_choice (s_retouch E) (Some ($"_ignore"))) unattended) by (right; right; right; left; reflexivity).
  destruct (ctx_prepare_inv E j D0 Hcwd Hdir (fun _ => True) (fun _ _ => I) comps cx t (Some ($"_ignore")) w local nt wa Hok Hs Hch Hp)
    as (a & p & u & rest & P1 & P2 & P3 & P4 & P5 & P6 & P7).
  assert (Hoka : mnt_ok j D0 wa). { pose proof (calm_prepare E j p w (Ok u) wa Hcwd P3) as (Hq & _). eapply quiet_ok; eassumption. }
  pose proof Hoka as [(m & Hm & Hmd & Ht) Hw].
  pose proof P4 as (Hcr & _). destruct (last_rel rest Hcr) as [Hlast _]. cbn zeta in Hlast.
  rewrite (ctx_path_loc E Hcwd j _ local nt _ wa m P6 P5 P7 Hlast Hm), Hmd in Hl. injection Hl as Hl <-. fold D in Hl.
  unfold read_storable in H. destruct ty as [c|]; [|discriminate]. destruct (sto_ty E c) as [[cl|d]|] eqn:Ety; [| |discriminate].
  - apply mbind_ok in H as (x & wc & H1 & H). apply m_read_inv in H1 as [[Hx _]|[-> Hx]]; [discriminate|].
    destruct (lookup (w_fs wa) l) as [[x0|]|] eqn:Elk; try discriminate. injection Hx as <-.
    apply mbind_ok in H as (d & wd & H2 & H). unfold lift in H2. injection H2 as H2 <-. unfold ret in H. injection H as <- <-.
    exists a, u, local, nt, (match removelast rest with [] => comps | l => l end), l, x, wa. split; [assumption|]. split; [eauto|]. split; [assumption|]. split; [assumption|].
    split; [exists rest; auto|]. split; [assumption|]. left. exists c, d. split; [reflexivity|]. exists cl. split; [assumption|]. split; [|auto].
    intros k. rewrite <- H2. apply Hdet.
  - apply mbind_ok in H as (x & wc & H1 & H). apply m_read_inv in H1 as [[Hx _]|[-> Hx]]; [discriminate|].
    destruct (lookup (w_fs wa) l) as [[x0|]|] eqn:Elk; try discriminate. injection Hx as <-. destruct x as [s|js]; [discriminate|].
    exists a, u, local, nt, (match removelast rest with [] => comps | l => l end), l, (Json js), wa. split; [assumption|]. split; [eauto|]. split; [assumption|]. split; [assumption|].
    split; [exists rest; auto|]. split; [assumption|]. right. exists c, d, js. auto.
Qed.

Definition de_replays (K K2 : nat) : Prop := forall cx cx2 comps x p, sctx j comps cx -> sctx j2 comps cx2 ->
  replays (alike j j2) (f_de (depth E K) (Some cx) x p) (f_de (depth E2 K2) (Some cx2) x p).
Lemma read_replay K K2 cx cx2 comps t ty : de_replays K K2 -> sctx j comps cx -> sctx j2 comps cx2 ->
  replays (alike j j2) (ctx_read E (depth E K) cx t ty) (ctx_read E2 (depth E2 K2) cx2 t ty).
Proof.
  intros IH Hs Hs2 w o w1 w2 Hw Hok Hok2 Hag H Hr.
  assert (Hc2 : s_cwd E2 = s_cwd E) by apply Hsame.
  pose proof (calm_ctx_read E Hcwd top K cx t ty w Hw) as Cw. rewrite H in Cw. cbn [snd] in Cw.
  destruct (read_inv K cx comps t ty w o w1 Hok Hs H) as (a & u & local & nt & comps' & l & x & wa & P1 & (q & Q1 & Q2) & P3 & P4 & (rest & R1 & R2 & R3 & R4 & R5) & P6 & P7).
  pose proof (calm_prepare E j q w (Ok u) wa Hcwd Q2) as Ca. pose proof (few_calm top w wa Hw Ca) as Hwa.
  assert (HGl : G l /\ suffix (logged (EvRead l) wa) w1 /\ reads (logged (EvRead l) wa) w1).
  { assert (Hsuf : suffix (logged (EvRead l) wa) w1).
    { destruct P7 as [(c & d & _ & cl & _ & _ & _ & ->)|(c & d & js & _ & _ & _ & Hd)]; [exists []; reflexivity|].
      pose proof (calm_de E Hcwd top K (Some local) (Some d) (of_json js) (logged (EvRead l) wa) Hwa) as Cd. rewrite Hd in Cd. apply Cd. }
    destruct (calm_rel_trans _ _ _ Ca (calm_logged (EvRead l) wa)) as (_ & Hsl & _).
    destruct (reads_split w (logged (EvRead l) wa) w1 Hsl Hsuf Hr) as [Hra Hrb].
    split; [|split; assumption]. apply Hra. destruct Ca as (_ & [e He] & _). exists (EvRead l :: e). cbn. rewrite He. split; [reflexivity|left; reflexivity]. }
  destruct HGl as (HGl & Hsuf & Hrd).
  assert (Hfw : file_at (w_fs w) l = Some x). { destruct Ca as ((Hf & _) & _). rewrite <- Hf. unfold file_at. rewrite P6. reflexivity. }
  assert (Hf2 : file_at (w_fs w2) l = Some x).
  { rewrite R5 in HGl, Hfw |- *. apply Hag; assumption. }
  destruct (prepare_replay q u w wa w2 Hok Hok2 Q2) as [(sd & S1 & S2) Hprep].
  pose proof R1 as (Hcr & _ & _ & Hsd). rewrite Hsd in S1. injection S1 as <-.
  assert (Hclr : Forall clean (removelast rest)).
  { clear - Hcr. destruct rest as [|y r]; [constructor|]. rewrite (@app_removelast_last _ (y :: r) []) in Hcr by discriminate. apply Forall_app in Hcr. apply Hcr. }
  assert (Hloc : os_loc (s_cwd E) (join2 D0 (join_sep (removelast rest))) = D ++ removelast rest) by (rewrite os_loc_location, location_sub by assumption; reflexivity).
  rewrite Hloc in S2.
  assert (Hlpre : exists y r, l = (D ++ removelast rest) ++ y :: r).
  { assert (Hx : forall r, l = (D ++ removelast rest) ++ r -> exists y r', r = y :: r').
    { intros [|y r] Hl; [|eauto]. exfalso. rewrite app_nil_r in Hl. rewrite Hl in P6. unfold is_dir in S2. rewrite P6 in S2. discriminate. }
    rewrite R5, R2 in Hx |- *. destruct (removelast rest) as [|y0 r0].
    - rewrite app_nil_r. destruct (Hx (comps ++ last_comp (match rest with [] => dot | _ => last rest [] end))) as (y & r & Hy); [rewrite app_nil_r; reflexivity|]. rewrite Hy. eauto.
    - destruct (Hx (last_comp (match rest with [] => dot | _ => last rest [] end))) as (y & r & Hy); [rewrite app_assoc; reflexivity|]. rewrite Hy. rewrite app_assoc. eauto. }
  destruct Hlpre as (y & r & Hlpre).
  assert (Hlk2 : lookup (w_fs w2) l = Some (File x)) by (unfold file_at in Hf2; destruct (lookup (w_fs w2) l) as [[|]|]; congruence).
  destruct Hprep as [w2a Hprep].
  { intros sd' Hsd'. rewrite Hsd in Hsd'. injection Hsd' as <-. rewrite Hloc. apply (lookup_dir _ _ y r). rewrite <- Hlpre, Hlk2. discriminate. }
  assert (Habs : ctx_absolute cx2 t = Ok a). { rewrite <- P1. unfold ctx_absolute. destruct Hs as (_ & -> & _), Hs2 as (_ & -> & _). reflexivity. }
  assert (Hprep2 : exists local2, ctx_prepare E2 cx2 t (Some ($"_ignore")) w2 = (Ok (local2, nt), w2a)).
  { unfold ctx_prepare in P3 |- *. rewrite mbind_run in *. unfold lift at 1. unfold lift at 1 in P3. rewrite Habs. rewrite P1 in P3. rewrite mbind_run in *. unfold lift at 1. unfold lift at 1 in P3. rewrite Q1 in *.
    rewrite mbind_run in *. destruct Hs as (Hi & _), Hs2 as (Hi2 & _). rewrite Hi2, Hprep. rewrite Hi, Q2 in P3. rewrite mbind_run in *.
    unfold lift at 1. unfold lift at 1 in P3. destruct (t_name u) as [nn|]; [|discriminate]. rewrite Hsd in *. rewrite mbind_run in *.
    unfold lift in *. destruct (Target None None (Some []) (Some nn)) as [nt'|]; [|discriminate]. unfold ret in *. injection P3 as _ ->. eauto. }
  destruct Hprep2 as [local2 Hprep2].
  assert (Hch : In (eff_choice (s_retouch E2) (Some ($"_ignore"))) unattended) by (right; right; right; left; reflexivity).
  destruct (ctx_prepare_inv E2 j2 D0 Hcwd2 Hdir (fun _ => True) (fun _ _ => I) comps cx2 t (Some ($"_ignore")) w2 local2 nt w2a Hok2 Hs2 Hch Hprep2)
    as (a2 & p2 & u2 & rest2 & B1 & B2 & B3 & B4 & B5 & B6 & B7).
  rewrite Habs in B1. injection B1 as <-. rewrite Q1 in B2. injection B2 as <-. rewrite Hprep in B3. injection B3 as <-.
  assert (rest2 = rest) by (eapply rel_target_unique; eassumption). subst rest2. rewrite <- R2 in B6.
  pose proof (calm_prepare E2 j2 q w2 (Ok u) w2a Hcwd2 Hprep) as Ca2. destruct Ca2 as (Qa2 & _ & _).
  assert (Hok2a : mnt_ok j2 D0 w2a) by (eapply quiet_ok; eassumption).
  pose proof Hok2a as [(m2 & Hm2 & Hmd2 & Ht2) Hwf2].
  destruct (last_rel rest Hcr) as [Hlast _]. cbn zeta in Hlast.
  assert (Hpath : ctx_path E2 local2 nt w2a = (Ok l, w2a)).
  { rewrite (ctx_path_loc E2 Hcwd2 j2 _ local2 nt _ w2a m2 B6 B5 B7 Hlast Hm2), Hmd2, Hc2. fold D. rewrite <- R5. reflexivity. }
  assert (Hlk2a : lookup (w_fs w2a) l = Some (File x)).
  { destruct Qa2 as [Hf _]. specialize (Hf l). unfold file_at in Hf. rewrite Hlk2 in Hf. destruct (lookup (w_fs w2a) l) as [[|]|]; congruence. }
  assert (Hql : quiet w2 (logged (EvRead l) w2a)) by (eapply quiet_trans; [exact Qa2|apply calm_logged]).
  assert (Hread : m_read E2 l w2a = (Ok x, logged (EvRead l) w2a)) by (unfold m_read; rewrite op_free by assumption; cbn [logged w_fs]; rewrite Hlk2a; reflexivity).
  unfold ctx_read. destruct P7 as [(c & d & -> & cl & T1 & T2 & -> & ->)|(c & d & js & -> & T1 & -> & T3)].
  - exists (OLeaf cl d), (logged (EvRead l) w2a). split; [|split; [constructor|assumption]].
    rewrite mbind_run. unfold attempt. rewrite mbind_run, Hprep2, mbind_run, Hpath. unfold read_storable. rewrite (sto_ty_same E E2 Hsame), T1.
    rewrite mbind_run, Hread. cbv beta iota. rewrite mbind_run. unfold lift.
    destruct Hsame as (_ & _ & _ & -> & _). rewrite T2. reflexivity.
  - destruct (IH local local2 comps' (Some d) (of_json js) P4 B6 (logged (EvRead l) wa) o w1 (logged (EvRead l) w2a)) as (o' & w2b & L1 & L2 & L3); try assumption.
    { eapply quiet_ok; [assumption| |exact Hok]. eapply quiet_trans; [apply Ca|apply calm_logged]. }
    { eapply agree_quiet; [|exact Hql|exact Hag]. eapply quiet_trans; [apply Ca|apply calm_logged]. }
    exists o', w2b. split; [|split; [assumption|eapply quiet_trans; eassumption]].
    rewrite mbind_run. unfold attempt. rewrite mbind_run, Hprep2, mbind_run, Hpath. unfold read_storable. rewrite (sto_ty_same E E2 Hsame), T1.
    rewrite mbind_run, Hread. cbv beta iota. rewrite L1. reflexivity.
Qed.

(** ** Deserialization *)
Definition pair_alike {K} (a b : K * obj) : Prop := fst a = fst b /\ alike j j2 (snd a) (snd b).
Lemma pairs_alike {K} (d d' : list (K * obj)) : Forall2 pair_alike d d' ->
  exists ks l l', d = combine ks l /\ d' = combine ks l' /\ Forall2 (alike j j2) l l' /\ List.length ks = List.length l.
Proof.
  induction 1 as [|[k x] [k' x'] d d' [H1 H2] H (ks & l & l' & -> & -> & H3 & H4)]; [exists [], [], []; cbn; auto|].
  cbn in H1, H2. subst k'. exists (k :: ks), (x :: l), (x' :: l'). cbn. auto.
Qed.
Lemma same_storable o o' : alike j j2 o o' -> is_storable E2 o' = is_storable E o.
Proof. intros H. rewrite (is_storable_same E E2 Hsame). symmetry. eapply alike_storable. exact H. Qed.
Lemma alike_mark o o' : alike j j2 o o' -> (forall m, o <> OMark m) /\ (forall m, o' <> OMark m).
Proof. intros H. inversion H; split; intros; discriminate. Qed.

Lemma fold_seq vs vs' : Forall2 (alike j j2) vs vs' -> forall q s s', Forall2 (alike j j2) s s' ->
  fst (fold_left (seq_append E) vs (q, s)) = fst (fold_left (seq_append E2) vs' (q, s')) /\
  Forall2 (alike j j2) (snd (fold_left (seq_append E) vs (q, s))) (snd (fold_left (seq_append E2) vs' (q, s'))).
Proof.
  induction 1 as [|v v' vs vs' Hv H IH]; intros q s s' Hs; [cbn; auto|]. cbn [fold_left]. unfold seq_append at 2 4 6 8.
  rewrite (same_storable v v' Hv). destruct (is_storable E v); [|apply IH; apply Forall2_app; auto].
  unfold seq_make_record. destruct (q_runs q) as [[[stem n] ss]|]; apply IH; apply Forall2_app; auto; constructor; auto; constructor; assumption.
Qed.
Lemma del_alike k d d' : Forall2 (@pair_alike str) d d' -> Forall2 pair_alike (assoc_del k d) (assoc_del k d').
Proof.
  induction 1 as [|[a x] [b x'] d d' [H1 H2] H IH]; [constructor|]. cbn in H1, H2. subst b. cbn [assoc_del].
  destruct (str_eq_dec a k); [assumption|]. constructor; [split; [reflexivity|assumption]|assumption].
Qed.
Lemma fold_map p vs vs' : Forall2 pair_alike vs vs' -> forall s s', Forall2 pair_alike s s' ->
  Forall2 pair_alike (fold_left (map_put E p) vs s) (fold_left (map_put E2 p) vs' s').
Proof.
  induction 1 as [|[k v] [k' v'] vs vs' [H1 Hv] H IH]; intros s s' Hs; [assumption|]. cbn [fold_left]. apply IH. unfold map_put. cbn [fst snd] in *. subst k'.
  apply Forall2_app; [apply del_alike; assumption|]. constructor; [|constructor]. split; [reflexivity|]. cbn [snd]. rewrite (same_storable v v' Hv).
  destruct (is_storable E v); [|assumption]. unfold map_make_record. constructor. assumption.
Qed.

(** What [deserialize] does with the result of the method of a class. *)
Definition checked (E : senv) (m : M obj) : M obj :=
  o <- (r <- attempt m;; match r with Ok o => ret o | Exn e => if is_ser_error e then raise e else ret (OMark (mkMark MExcUndeser None)) end);;
  match o with OMark _ => _ <- invalid_found E;; ret o | _ => ret o end.
Lemma marked_never (w : world) o w1 : (match o with OMark _ => _ <- invalid_found E;; ret o | _ => ret o end) w = (Ok o, w1) -> (forall m, o <> OMark m) /\ w1 = w.
Proof.
  destruct o; intros H; try (unfold ret in H; injection H as <-; split; [discriminate|reflexivity]).
  exfalso. apply mbind_ok in H as (u & wu & Hu & _). apply invalid_ok in Hu as [_ Hu]. congruence.
Qed.
Lemma checked_ok E' m w o w1 : m w = (Ok o, w1) -> (forall mk, o <> OMark mk) -> checked E' m w = (Ok o, w1).
Proof. intros H Hn. unfold checked. rewrite mbind_run, mbind_run. unfold attempt. rewrite H. unfold ret at 1. destruct o; try reflexivity. exfalso. eapply Hn; reflexivity. Qed.
Lemma checked_inv m w o w1 : checked E m w = (Ok o, w1) -> m w = (Ok o, w1) /\ (forall mk, o <> OMark mk).
Proof.
  unfold checked. intros H. apply mbind_ok in H as (x & wx & H & Hx).
  assert (x = o). { destruct x; try (unfold ret in Hx; congruence). apply mbind_ok in Hx as (u & wu & _ & Hx). unfold ret in Hx. congruence. } subst x.
  apply marked_never in Hx as [Hn ->]. split; [|assumption]. apply mbind_ok in H as (r & wr & H & Hr). apply attempt_ok in H.
  destruct r as [o'|e]; [unfold ret in Hr; congruence|]. exfalso. destruct (is_ser_error e); [discriminate|]. unfold ret in Hr. injection Hr as Hr _. eapply Hn. symmetry. exact Hr.
Qed.
Lemma checked_replay m m2 : replays (fun a b => (forall mk, a <> OMark mk) -> alike j j2 a b) m m2 -> replays (alike j j2) (checked E m) (checked E2 m2).
Proof.
  intros Hm w o w1 w2 Hw Hok Hok2 Hag H Hr. apply checked_inv in H as [H Hn].
  destruct (Hm w o w1 w2 Hw Hok Hok2 Hag H Hr) as (o' & w2' & L1 & L2 & L3). specialize (L2 Hn). exists o', w2'. split; [|split; assumption].
  apply checked_ok; [assumption|]. apply (alike_mark _ _ L2).
Qed.

Section Step.
Variables K K2 : nat.
Hypothesis IH : de_replays K K2.
Variables (cx cx2 : ctx) (comps : loc).
Hypothesis Hs : sctx j comps cx.
Hypothesis Hs2 : sctx j2 comps cx2.
Let item p : replays (alike j j2) (f_de (depth E K) (Some cx) None p) (f_de (depth E2 K2) (Some cx2) None p).
Proof. eapply IH; eassumption. Qed.
Let ccalm p : calm top (f_de (depth E K) (Some cx) None p).
Proof. apply calm_de. assumption. Qed.

Lemma rec_load_replay c c' re : alike j j2 c c' ->
  replays (fun a b => alike j j2 (fst (fst a)) (fst (fst b)) /\ alike j j2 (snd (fst a)) (snd (fst b)) /\ snd a = snd b)
    (rec_load E (depth E K) c re) (rec_load E2 (depth E2 K2) c' re).
Proof.
  intros H. unfold rec_load. inversion H; try (subst; apply replays_ret; cbn; auto; fail). subst.
  intros w a w1 w2 Hw Hok Hok2 Hag Hrun Hr. apply mbind_ok in Hrun as (x & wx & H2 & H3).
  assert (Hx : (forall m, x <> OMark m) /\ wx = w1 /\ a = (x, x, None) \/ exists m, x = OMark m).
  { destruct x; try (left; unfold ret in H3; injection H3 as <- <-; split; [discriminate|auto]). right. eauto. }
  assert (Hrx : reads w wx).
  { destruct Hx as [(_ & -> & _)|[m ->]]; [assumption|]. unfold ret in H3. injection H3 as _ <-. assumption. }
  match goal with A : sctx j ?cs ?a, B : sctx j2 ?cs ?b |- _ => destruct (read_replay K K2 a b cs t ty IH A B w x wx w2 Hw Hok Hok2 Hag H2 Hrx) as (x' & w2' & L1 & L2 & L3) end.
  destruct (alike_mark _ _ L2) as [N1 N2]. destruct Hx as [(_ & -> & ->)|[m ->]]; [|exfalso; eapply N1; reflexivity].
  exists (x', x', None), w2'. split; [rewrite mbind_run, L1; destruct x'; try reflexivity; exfalso; eapply N2; reflexivity|]. cbn. auto.
Qed.
Lemma calm_load c re : calm top (rec_load E (depth E K) c re).
Proof.
  unfold rec_load. destruct c; try apply calm_ret. apply calm_bind; [apply calm_ctx_read; assumption|]. intros []; apply calm_ret.
Qed.
Lemma dir_replay : replays eq (ctx_dir cx) (ctx_dir cx2).
Proof.
  intros w a w1 w2 Hw [(m & Hm & Hmd & _) _] [(m2 & Hm2 & Hmd2 & _) _] _ H _. unfold ctx_dir in *. destruct Hs as (I1 & S1 & _), Hs2 as (I2 & S2 & _).
  rewrite mbind_run in *. unfold m_dir_of in *. rewrite I1, Hm in H. rewrite I2, Hm2. cbn in *. injection H as <- <-.
  exists (join2 (m_dir m2) (c_sub cx2)), w2. split; [reflexivity|]. split; [congruence|apply quiet_refl].
Qed.
Lemma calm_dir c : calm top (ctx_dir c).
Proof.
  unfold ctx_dir. apply calm_bind; [|intros; apply calm_ret]. intros w _. unfold m_dir_of. destruct (nth_error _ _); apply calm_rel_refl.
Qed.
Lemma calm_invalid : calm top (invalid_found E).
Proof. unfold invalid_found. destruct (s_validate E); [apply calm_raise|apply calm_ret]. Qed.
Lemma rec_replay d : replays (alike j j2) (de_rec E (depth E K) (Some cx) d) (de_rec E2 (depth E2 K2) (Some cx2) d).
Proof.
  unfold de_rec. set (tgt := match get "target" d with Some (PAtom (AStr s)) => Some (from_path s) | _ => None end).
  set (excs := match get "exceptions" d with Some (PDict e) => _ | _ => _ end). cbv zeta.
  eapply (replays_bind (fun a b => alike j j2 (fst a) (fst b) /\ snd a = snd b)).
  - destruct tgt; [apply calm_bind; [apply calm_dir|intros; apply calm_ret]|apply calm_bind; [apply calm_invalid|intros; apply calm_ret]].
  - intros [c re]. destruct (get_bool "preload" false d).
    + apply calm_bind; [apply calm_bind; [apply calm_load|intros; apply calm_ret]|intros; apply calm_ret].
    + apply calm_bind; [apply calm_ret|intros; apply calm_ret].
  - destruct tgt as [t|].
    + eapply (replays_bind eq); [apply calm_dir|intros; apply calm_ret|apply dir_replay|]. intros a a' <-. apply replays_ret. cbn. split; [econstructor; eassumption|reflexivity].
    + unfold invalid_found at 1. rewrite Hval. intros w x w1 w2 _ _ _ _ Hx _. discriminate.
  - intros [c re] [c' re'] [Hc Hre]. cbn [fst snd] in Hc, Hre. subst re'. eapply (replays_bind (alike j j2)).
    + destruct (get_bool "preload" false d); [apply calm_bind; [apply calm_load|intros; apply calm_ret]|apply calm_ret].
    + intros; apply calm_ret.
    + destruct (get_bool "preload" false d); [|apply replays_ret; assumption].
      eapply replays_bind; [apply calm_load|intros; apply calm_ret|apply rec_load_replay; exact Hc|]. intros a b (_ & H & _). apply replays_ret. exact H.
    + intros x x' Hx. apply replays_ret. constructor. assumption.
Qed.
Lemma items_replay l : replays (Forall2 (alike j j2)) (mapM (f_de (depth E K) (Some cx) None) l) (mapM (f_de (depth E2 K2) (Some cx2) None) l).
Proof. eapply (replays_mapM eq); [exact ccalm|intros x x' <-; apply item|apply forall2_same; reflexivity]. Qed.
Lemma seq_replay runs sto d : replays (alike j j2) (de_seq E (depth E K) (Some cx) runs sto d) (de_seq E2 (depth E2 K2) (Some cx2) runs sto d).
Proof.
  unfold de_seq. set (q0 := mkSeq _ _ _ _). cbv zeta.
  assert (Hgo : forall l, replays (alike j j2)
    (vs <- mapM (f_de (depth E K) (Some cx) None) l;; let (q, s) := fold_left (seq_append E) vs (q0, []) in
      ret (OSeq (mkSeq sto (q_sub q) (q_pre q) (if runs then Some (get_text "stem" [] d, match get "run_count" d with Some (PAtom (AInt z)) => Z.to_N z | _ => 0%N end, get_bool "store_subdir" true d) else None)) s []))
    (vs <- mapM (f_de (depth E2 K2) (Some cx2) None) l;; let (q, s) := fold_left (seq_append E2) vs (q0, []) in
      ret (OSeq (mkSeq sto (q_sub q) (q_pre q) (if runs then Some (get_text "stem" [] d, match get "run_count" d with Some (PAtom (AInt z)) => Z.to_N z | _ => 0%N end, get_bool "store_subdir" true d) else None)) s []))).
  { intros l. eapply replays_bind; [apply calm_mapM; intros; apply ccalm| |apply items_replay|].
    - intros vs. destruct (fold_left _ vs _). apply calm_ret.
    - intros vs vs' Hvs. destruct (fold_seq vs vs' Hvs q0 [] [] (Forall2_nil _)) as [H1 H2]. destruct (fold_left (seq_append E) vs (q0, [])) as [q s], (fold_left (seq_append E2) vs' (q0, [])) as [q' s'].
      cbn [fst snd] in *. subst q'. apply replays_ret. constructor. assumption. }
  destruct (get "store" d) as [[| |]|]; try apply replays_raise; apply Hgo.
Qed.
Lemma map_replay sto d : replays (alike j j2) (de_map E (depth E K) (Some cx) sto d) (de_map E2 (depth E2 K2) (Some cx2) sto d).
Proof.
  unfold de_map. cbv zeta. set (p := mkMap _ _ _ _ _).
  assert (Hp : forall s s', Forall2 pair_alike s s' -> alike j j2 (OMap p s []) (OMap p s' [])).
  { intros s s' H. destruct (pairs_alike s s' H) as (ks & l & l' & -> & -> & H1 & H2). constructor; assumption. }
  destruct (get "store" d) as [[| |kvs]|]; try apply replays_raise; [|apply replays_ret; apply Hp; constructor].
  assert (Hc : forall kv : atom * pser, calm top (k <- lift (str_key (fst kv));; v <- f_de (depth E K) (Some cx) None (snd kv);; ret (k, v))).
  { intros kv. apply calm_bind; [apply calm_lift|]. intros k. apply calm_bind; [apply ccalm|]. intros; apply calm_ret. }
  eapply (replays_bind (Forall2 pair_alike)); [apply calm_mapM; intros; apply Hc|intros; apply calm_ret| |].
  - eapply (replays_mapM eq); [exact Hc| |apply forall2_same; reflexivity]. intros kv kv' <-.
    eapply (replays_bind eq); [apply calm_lift| | |].
    + intros k. apply calm_bind; [apply ccalm|]. intros; apply calm_ret.
    + intros w a w1 w2 _ _ _ _ H _. unfold lift in *. injection H as -> <-. exists a, w2. split; [reflexivity|]. split; [reflexivity|apply quiet_refl].
    + intros k k' <-. eapply replays_bind; [apply ccalm|intros; apply calm_ret|apply item|]. intros v v' Hv. apply replays_ret. split; [reflexivity|assumption].
  - intros vs vs' Hvs. apply replays_ret. apply Hp. apply fold_map; [assumption|constructor].
Qed.
Lemma wrap_alike f v v' : alike j j2 v v' -> alike j j2 (wrap_new E f v) (wrap_new E2 f v').
Proof. intros H. unfold wrap_new. destruct (mf_wrap f) as [[t pre]|]; [|assumption]. rewrite (same_storable v v' H). destruct (is_storable E v); [constructor|]; assumption. Qed.
Lemma calm_fields d fds : calm top (de_fields E (depth E K) (Some cx) fds d).
Proof.
  induction fds as [|f r IHr]; [apply calm_ret|]. cbn [de_fields]. apply calm_bind; [|intros v; apply calm_bind; [exact IHr|intros; apply calm_ret]].
  destruct (assoc_a (AStr (mf_name f)) d) as [[[]| |]|]; first [apply calm_ret|apply ccalm].
Qed.
Lemma fields_replay d fds : (forall f v, In f fds -> mf_default f = Some v -> in_memory v) ->
  replays (Forall2 pair_alike) (de_fields E (depth E K) (Some cx) fds d) (de_fields E2 (depth E2 K2) (Some cx2) fds d).
Proof.
  induction fds as [|f r IHr]; intros Hd; [apply replays_ret; constructor|]. cbn [de_fields].
  eapply (replays_bind (alike j j2)).
  - destruct (assoc_a (AStr (mf_name f)) d) as [[[]| |]|]; first [apply calm_ret|apply ccalm].
  - intros v. apply calm_bind; [apply calm_fields|intros; apply calm_ret].
  - assert (Hdf : alike j j2 (match mf_default f with Some v => v | None => OAtom ANone end) (match mf_default f with Some v => v | None => OAtom ANone end)).
    { destruct (mf_default f) as [v|] eqn:Ed; [|constructor]. apply alike_refl. eapply Hd; [left; reflexivity|exact Ed]. }
    destruct (assoc_a (AStr (mf_name f)) d) as [[[]| |]|]; first [apply replays_ret; exact Hdf|apply item].
  - intros v v' Hv. eapply replays_bind; [apply calm_fields|intros; apply calm_ret|apply IHr; intros; eapply Hd; [right; eassumption|eassumption]|].
    intros rest rest' Hrest. apply replays_ret. constructor; [split; [reflexivity|apply wrap_alike; assumption]|assumption].
Qed.
Lemma model_replay c d : replays (alike j j2) (de_model E (depth E K) (Some cx) c d) (de_model E2 (depth E2 K2) (Some cx2) c d).
Proof.
  unfold de_model. pose proof (proj1 Hsame) as ->. destruct (k_kind (s_class E c)) as [|fds] eqn:Ek; [apply replays_raise|].
  eapply replays_bind; [apply calm_fields|intros; apply calm_ret|apply fields_replay; intros f v; eapply Hdef; exact Ek|].
  intros fs fs' H. apply replays_ret. destruct (pairs_alike fs fs' H) as (ks & l & l' & -> & -> & H1 & H2). constructor; assumption.
Qed.
Lemma object_replay ty p : replays (alike j j2)
  (o <- de_object E (depth E K) (Some cx) ty p;; match o with OMark _ => _ <- invalid_found E;; ret o | _ => ret o end)
  (o <- de_object E2 (depth E2 K2) (Some cx2) ty p;; match o with OMark _ => _ <- invalid_found E2;; ret o | _ => ret o end).
Proof.
  change (replays (alike j j2) (checked E (match p with
               | PDict d => match ty with
                            | DRec => de_rec E (depth E K) (Some cx) d
                            | DSeq runs sto => de_seq E (depth E K) (Some cx) runs sto d
                            | DMap sto => de_map E (depth E K) (Some cx) sto d
                            | DModel c => de_model E (depth E K) (Some cx) c d
                            | DMark k => ret (OMark (mkMark k (get_str "type" d)))
                            end
               | _ => raise AttributeError
               end)) (checked E2 (match p with
               | PDict d => match ty with
                            | DRec => de_rec E2 (depth E2 K2) (Some cx2) d
                            | DSeq runs sto => de_seq E2 (depth E2 K2) (Some cx2) runs sto d
                            | DMap sto => de_map E2 (depth E2 K2) (Some cx2) sto d
                            | DModel c => de_model E2 (depth E2 K2) (Some cx2) c d
                            | DMark k => ret (OMark (mkMark k (get_str "type" d)))
                            end
               | _ => raise AttributeError
               end))).
  apply checked_replay. destruct p as [| |d]; try apply replays_raise.
  destruct ty; [| | | |apply replays_ret; intros Hn; exfalso; eapply Hn; reflexivity];
    (eapply replays_mono; [intros a b Hab _; exact Hab|]); [apply rec_replay|apply seq_replay|apply map_replay|apply model_replay].
Qed.
Lemma calm_checked_tail (o : obj) : calm top (match o with OMark _ => _ <- invalid_found E;; ret o | _ => ret o end).
Proof. destruct o; try apply calm_ret. apply calm_bind; [apply calm_invalid|intros; apply calm_ret]. Qed.
Lemma plain_tail o o' : alike j j2 o o' ->
  replays (alike j j2) (match o with OMark _ => _ <- invalid_found E;; ret o | _ => ret o end) (match o' with OMark _ => _ <- invalid_found E2;; ret o' | _ => ret o' end).
Proof. intros H. destruct (alike_mark _ _ H) as [N1 N2]. destruct o, o'; try (exfalso; eapply N1; reflexivity); try (exfalso; eapply N2; reflexivity); apply replays_ret; assumption. Qed.
Lemma mark_tail mk m2 : replays (alike j j2) (o <- ret (OMark mk);; match o with OMark _ => _ <- invalid_found E;; ret o | _ => ret o end) m2.
Proof. intros w a w1 w2 _ _ _ _ H _. rewrite mbind_run in H. cbn in H. unfold invalid_found in H. rewrite Hval in H. discriminate. Qed.
Lemma body_replay x p : replays (alike j j2) (de_body E (depth E K) (Some cx) x p) (de_body E2 (depth E2 K2) (Some cx2) x p).
Proof.
  unfold de_body.
  assert (Hobj := object_replay).
  assert (Hlist : forall l, replays (alike j j2)
    (o <- (vs <- mapM (f_de (depth E K) (Some cx) None) l;; ret (OList vs));; match o with OMark _ => _ <- invalid_found E;; ret o | _ => ret o end)
    (o <- (vs <- mapM (f_de (depth E2 K2) (Some cx2) None) l;; ret (OList vs));; match o with OMark _ => _ <- invalid_found E2;; ret o | _ => ret o end)).
  { intros l. eapply replays_bind; [apply calm_bind; [apply calm_mapM; intros; apply ccalm|intros; apply calm_ret]|apply calm_checked_tail| |exact plain_tail].
    eapply replays_bind; [apply calm_mapM; intros; apply ccalm|intros; apply calm_ret|apply items_replay|]. intros vs vs' H. apply replays_ret. constructor. assumption. }
  assert (Hatom : forall a, replays (alike j j2)
    (o <- ret (OAtom a);; match o with OMark _ => _ <- invalid_found E;; ret o | _ => ret o end)
    (o <- ret (OAtom a);; match o with OMark _ => _ <- invalid_found E2;; ret o | _ => ret o end)).
  { intros a. eapply (replays_bind (alike j j2)); [apply calm_ret|apply calm_checked_tail|apply replays_ret; constructor|exact plain_tail]. }
  assert (Hdict : forall d : list (atom * pser), replays (alike j j2)
    (o <- (vs <- mapM (fun kv => v <- f_de (depth E K) (Some cx) None (snd kv);; ret (fst kv, v)) d;; ret (ODict vs));; match o with OMark _ => _ <- invalid_found E;; ret o | _ => ret o end)
    (o <- (vs <- mapM (fun kv => v <- f_de (depth E2 K2) (Some cx2) None (snd kv);; ret (fst kv, v)) d;; ret (ODict vs));; match o with OMark _ => _ <- invalid_found E2;; ret o | _ => ret o end)).
  { intros d.
    assert (Hc : forall kv : atom * pser, calm top (v <- f_de (depth E K) (Some cx) None (snd kv);; ret (fst kv, v))) by (intros kv; apply calm_bind; [apply ccalm|intros; apply calm_ret]).
    eapply replays_bind; [apply calm_bind; [apply calm_mapM; intros; apply Hc|intros; apply calm_ret]|apply calm_checked_tail| |exact plain_tail].
    eapply (replays_bind (Forall2 pair_alike)); [apply calm_mapM; intros; apply Hc|intros; apply calm_ret| |].
    - eapply (replays_mapM eq); [exact Hc| |apply forall2_same; reflexivity]. intros kv kv' <-.
      eapply replays_bind; [apply ccalm|intros; apply calm_ret|apply item|]. intros v v' Hv. apply replays_ret. split; [reflexivity|assumption].
    - intros vs vs' H. apply replays_ret. destruct (pairs_alike vs vs' H) as (ks & l & l' & -> & -> & H1 & H2). constructor; assumption. }
  assert (Hd : forall d, replays (alike j j2)
     (o <- match assoc_a (AStr SER_TYPE) d with
                   | None => vs <- mapM (fun kv => v <- f_de (depth E K) (Some cx) None (snd kv);; ret (fst kv, v)) d;; ret (ODict vs)
                   | Some (PAtom (AStr t)) =>
                       match ser_ty E t with
                       | None => ret (OMark (mkMark MUndeser None))
                       | Some ty => de_object E (depth E K) (Some cx) ty match assoc_a (AStr SER_CONTENT) d with Some q => q | None => PDict [] end
                       end
                   | Some (PAtom _) => ret (OMark (mkMark MUndeser None))
                   | Some _ => raise TypeError
                   end;; match o with OMark _ => _ <- invalid_found E;; ret o | _ => ret o end)
     (o <- match assoc_a (AStr SER_TYPE) d with
                   | None => vs <- mapM (fun kv => v <- f_de (depth E2 K2) (Some cx2) None (snd kv);; ret (fst kv, v)) d;; ret (ODict vs)
                   | Some (PAtom (AStr t)) =>
                       match ser_ty E2 t with
                       | None => ret (OMark (mkMark MUndeser None))
                       | Some ty => de_object E2 (depth E2 K2) (Some cx2) ty match assoc_a (AStr SER_CONTENT) d with Some q => q | None => PDict [] end
                       end
                   | Some (PAtom _) => ret (OMark (mkMark MUndeser None))
                   | Some _ => raise TypeError
                   end;; match o with OMark _ => _ <- invalid_found E2;; ret o | _ => ret o end)).
  { intros d. destruct (assoc_a (AStr SER_TYPE) d) as [[a| |]|]; [|intros w b w1 w2 _ _ _ _ H _; discriminate|intros w b w1 w2 _ _ _ _ H _; discriminate|apply Hdict].
    destruct a; try apply mark_tail. rewrite (ser_ty_same E E2 Hsame). destruct (ser_ty E _); [apply Hobj|apply mark_tail]. }
  destruct p as [[]|l|d]; try (apply replays_ret; constructor); (destruct x as [ty|]; [apply Hobj|]); first [apply Hatom|apply Hlist|apply Hd].
Qed.
End Step.

Lemma de_replay K : forall K2, K <= K2 -> de_replays K K2.
Proof.
  induction K as [|K IH]; intros K2 HK.
  - intros cx cx2 comps x p _ _. apply replays_raise.
  - destruct K2 as [|K2]; [lia|]. intros cx cx2 comps x p Hs Hs2. cbn [depth f_de]. eapply body_replay; [apply IH; lia|eassumption|eassumption].
Qed.

(** ** Accessing everything *)
Lemma combine_alike {A} (ks : list A) l l' : Forall2 (alike j j2) l l' -> List.length ks = List.length l -> Forall2 pair_alike (combine ks l) (combine ks l').
Proof.
  intros H. revert ks. induction H as [|x x' l l' Hx H IH]; intros [|k ks] Hl; try discriminate; [constructor|]. cbn. constructor; [split; [reflexivity|exact Hx]|].
  apply IH. cbn in Hl. congruence.
Qed.
Lemma assoc_alike k d d' : Forall2 pair_alike d d' ->
  (assoc k d = None /\ assoc k d' = None) \/ exists v v', assoc k d = Some v /\ assoc k d' = Some v' /\ alike j j2 v v'.
Proof.
  induction 1 as [|[a x] [b x'] d d' [H1 H2] H IH]; [left; split; reflexivity|]. cbn in H1, H2. subst b. cbn [assoc].
  destruct (str_eq_dec a k); [right; eauto|exact IH].
Qed.
Lemma calm_content K o : calm top (content_of E K o).
Proof.
  unfold content_of. destruct o; try apply calm_ret. apply calm_bind; [apply calm_load|]. intros [[v c'] re']. apply calm_ret.
Qed.
Lemma calm_view K m : forall o, calm top (view E K m o).
Proof.
  induction m as [|m IH]; intros o; [apply calm_raise|]. cbn [view]. apply calm_bind; [apply calm_content|]. intros [x o']. cbn [fst].
  assert (Hkeyed : forall (A : Type) (l : list (A * obj)), calm top (mapM (fun kv => t <- view E K m (snd kv);; ret (fst kv, t)) l)).
  { intros A l. apply calm_mapM. intros kv _. apply calm_bind; [apply IH|intros; apply calm_ret]. }
  assert (Hitems : forall l, calm top (mapM (view E K m) l)) by (intros l; apply calm_mapM; intros y _; apply IH).
  destruct x; try apply calm_raise; try apply calm_ret.
  - apply calm_bind; [apply Hitems|intros; apply calm_ret].
  - apply calm_bind; [apply Hkeyed|intros; apply calm_ret].
  - destruct (k_kind _); [apply calm_raise|]. apply calm_bind; [|intros; apply calm_ret]. apply calm_mapM. intros f _.
    destruct (assoc _ _); [|apply calm_raise]. apply calm_bind; [apply IH|intros; apply calm_ret].
  - apply calm_bind; [apply Hitems|intros; apply calm_ret].
  - apply calm_bind; [apply Hkeyed|intros; apply calm_ret].
Qed.
Lemma content_replay K K2 o o' : K <= K2 -> alike j j2 o o' ->
  replays (fun a b => alike j j2 (fst a) (fst b)) (content_of E K o) (content_of E2 K2 o').
Proof.
  intros HK H. inversion H; subst; cbn [content_of]; try (apply replays_ret; cbn; exact H).
  eapply replays_bind; [apply calm_load|intros [[v c1] re1]; apply calm_ret|apply rec_load_replay; [apply de_replay; exact HK|eassumption]|].
  intros [[v c1] re1] [[v' c1'] re1'] (H1 & _). apply replays_ret. cbn in *. assumption.
Qed.
Lemma forall2_eq {A} (l l' : list A) : Forall2 eq l l' -> l = l'.
Proof. induction 1; congruence. Qed.
Lemma view_replay K K2 : K <= K2 -> forall m m2 o o', m <= m2 -> alike j j2 o o' -> replays eq (view E K m o) (view E2 K2 m2 o').
Proof.
  intros HK. induction m as [|m IH]; intros m2 o o' Hm H; [apply replays_raise|]. destruct m2 as [|m2]; [lia|]. assert (Hm' : m <= m2) by lia. cbn [view].
  eapply replays_bind; [apply calm_content| |apply content_replay; eassumption|].
  { intros x. pose proof (calm_view K (S m) (fst x)) as Hc. cbn [view] in Hc. intros w Hw. specialize (Hc w Hw). rewrite mbind_run in Hc.
    destruct (fst x) eqn:Ex; first [exact Hc|apply calm_rel_refl]. }
  intros [x y] [x' y'] Hx. cbn [fst] in *.
  assert (Hitems : forall l l', Forall2 (alike j j2) l l' -> replays eq (mapM (view E K m) l) (mapM (view E2 K2 m2) l')).
  { intros l l' Hl. eapply replays_mono; [intros a b Hab; apply forall2_eq; exact Hab|]. eapply replays_mapM; [apply calm_view| |exact Hl].
    intros a b Hab. apply IH; assumption. }
  assert (Hkeyed : forall (A : Type) (ks : list A) l l', Forall2 (alike j j2) l l' -> List.length ks = List.length l ->
     replays eq (mapM (fun kv => t <- view E K m (snd kv);; ret (fst kv, t)) (combine ks l)) (mapM (fun kv => t <- view E2 K2 m2 (snd kv);; ret (fst kv, t)) (combine ks l'))).
  { intros A ks l l' Hl Hlen. eapply replays_mono; [intros a b Hab; apply forall2_eq; exact Hab|]. eapply replays_mapM; [| |apply combine_alike; eassumption].
    - intros kv. apply calm_bind; [apply calm_view|intros; apply calm_ret].
    - intros [k v] [k' v'] [H1 H2]. cbn [fst snd] in *. subst k'. eapply replays_bind; [apply calm_view|intros; apply calm_ret|apply IH; eassumption|].
      intros t t' <-. apply replays_ret. reflexivity. }
  assert (Ck : forall (A : Type) (l : list (A * obj)), calm top (mapM (fun kv => t <- view E K m (snd kv);; ret (fst kv, t)) l)).
  { intros A l. apply calm_mapM. intros kv _. apply calm_bind; [apply calm_view|intros; apply calm_ret]. }
  assert (Ci : forall l, calm top (mapM (view E K m) l)) by (intros l; apply calm_mapM; intros z _; apply calm_view).
  inversion Hx; subst; try apply replays_raise; try (apply replays_ret; reflexivity).
  - eapply replays_bind; [apply Ci|intros; apply calm_ret|apply Hitems; assumption|]. intros ts ts' <-. apply replays_ret. reflexivity.
  - eapply replays_bind; [apply Ck|intros; apply calm_ret|apply Hkeyed; assumption|]. intros ts ts' <-. apply replays_ret. reflexivity.
  - pose proof (proj1 Hsame) as ->. destruct (k_kind (s_class E c)) as [|fds]; [apply replays_raise|].
    match goal with A : Forall2 (alike j j2) ?l ?l', B : List.length ?ks = List.length ?l |- _ => pose proof (combine_alike ks l l' A B) as Hp end.
    assert (Hcf : forall f, calm top (match assoc (mf_name f) (combine ks l) with Some v => t <- view E K m v;; ret (mf_name f, t) | None => raise AttributeError end)).
    { intros f. destruct (assoc _ _); [|apply calm_raise]. apply calm_bind; [apply calm_view|intros; apply calm_ret]. }
    eapply (replays_bind eq); [apply calm_mapM; intros f _; apply Hcf|intros; apply calm_ret| |intros ts ts' <-; apply replays_ret; reflexivity].
    eapply replays_mono; [intros a b Hab; apply forall2_eq; exact Hab|]. eapply (replays_mapM eq); [exact Hcf| |apply forall2_same; reflexivity].
    intros f f' <-. destruct (assoc_alike (mf_name f) _ _ Hp) as [[-> ->]|(v & v' & -> & -> & Hv)]; [apply replays_raise|].
    eapply replays_bind; [apply calm_view|intros; apply calm_ret|apply IH; eassumption|]. intros t t' <-. apply replays_ret. reflexivity.
  - eapply replays_bind; [apply Ci|intros; apply calm_ret|apply Hitems; assumption|]. intros ts ts' <-. apply replays_ret. reflexivity.
  - eapply replays_bind; [apply Ck|intros; apply calm_ret|apply Hkeyed; assumption|]. intros ts ts' <-. apply replays_ret. reflexivity.
Qed.
End Replay.
