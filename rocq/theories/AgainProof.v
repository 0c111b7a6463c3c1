(** Serializing a serialized model again: the same model, the same data, the same files. *)
From Coq Require Import List Ascii String Bool Arith ZArith Lia.
From Verif Require Import Base PosixModel FsModel PathModel SerialModel StoreModel StoreFrame StoreMount StoreSpec StoreLocal StorePlace
     StoreRecord RoundSpec KeepSpec SameSpec AgainSpec RoundProof CleanProof ReplayProof DropProof DropSettled KeepProof SameProof PathSpec MountSpec DirSpec PosixProof FsProof DirProof TargetProof MountProof HistoryProof PathFacts SerialSpec SerialProof.
Import ListNotations.

Local Arguments str_eq_dec : simpl never.
Local Arguments atom_eq_dec : simpl never.

Lemma rename_same z n : t_name (from_path z) = Ok n -> update (from_path z) None None None (Some n) = Ok (from_path z).
Proof.
  unfold from_path. destruct (path_split z) as [sd nm]. pose proof (splitext_app nm) as Hs. destruct (splitext nm) as [st su] eqn:En. cbn [fst snd] in Hs.
  unfold t_name. cbn [t_stem t_suffix]. intros H. injection H as <-. unfold update, Target. rewrite Hs, En. reflexivity.
Qed.

Section Again.
Variables E E2 : senv.
Variable i : nat.
Variable D0 : str.
Variable wb : world.
Hypothesis Hcwd : absolute (s_cwd E).
Hypothesis Hdir : absolute D0.
Hypothesis Hret : s_retouch E = $"auto" \/ s_retouch E = $"quit".
Hypothesis Hret2 : s_retouch E2 = $"auto" \/ s_retouch E2 = $"quit".
Hypothesis Hval : s_validate E = true.
Hypothesis Hval2 : s_validate E2 = true.
Hypothesis Hreg : registered_classes E.
Hypothesis Hfai : faithful_methods E.
Hypothesis Hsame : same_code E E2.
Hypothesis Hwri : writes_determined E E2.
Hypothesis Hflo : s_float E2 = s_float E.
Let D := location (s_cwd E) D0.
Notation ok := (mnt_ok i D0).
Notation hold := (holds E wb D0).
Notation claimed := (RoundProof.claimed E i D0).
Notation claimed2 := (RoundProof.claimed E2).
Notation fresh := (RoundProof.fresh E i D0).
Notation keepc := (RoundProof.claims_kept E i D0).
Let Hun := RoundProof.Hun E Hret.
Let Hun2 := RoundProof.Hun E2 Hret2.
Let Hc2 := RoundProof.Hcwd2 E E2 Hcwd Hsame.
Let HDD : location (s_cwd E2) D0 = D := RoundProof.HD2 E E2 D0 Hsame.

(** The effect of the second run on the files [g]. *)
Definition free (g : files) (j : nat) (w : world) : Prop := forall l c, g l c -> ~ claimed2 j D0 w l.
Definition After (g : files) (j : nat) (w w' : world) : Prop :=
  mnt_ok j D0 w' /\ w_uuid w' = w_uuid w /\ (forall l, claimed2 j D0 w' l <-> claimed2 j D0 w l \/ exists c, g l c) /\
  (forall l c, g l c -> file_at (w_fs w') l = Some c) /\ (forall l, (forall c, ~ g l c) -> file_at (w_fs w') l = file_at (w_fs w) l).
Definition Again (g : files) (comps : list str) (co : bool) (o : obj) (p : pser) : Prop :=
  forall K j cx w o2 p2 w2, sctx j comps cx -> mnt_ok j D0 w -> free g j w ->
    f_ser (depth E2 K) (Some cx) co o w = (Ok (o2, p2), w2) -> o2 = o /\ p2 = p /\ After g j w w2.

Lemma after_none g j w : none g -> mnt_ok j D0 w -> After g j w w.
Proof.
  intros Hn Hok. split; [assumption|]. split; [reflexivity|]. split; [|split].
  - intros l. split; [auto|]. intros [H|[c H]]; [assumption|destruct (Hn l c H)].
  - intros l c H. destruct (Hn l c H).
  - reflexivity.
Qed.
Lemma free_left g1 g2 g j w : joined g1 g2 g -> free g j w -> free g1 j w.
Proof. intros [H _] Hf l c Hl. apply (Hf l c), H. auto. Qed.
Lemma free_right g1 g2 g j w w1 : joined g1 g2 g -> free g j w -> After g1 j w w1 -> free g2 j w1.
Proof.
  intros [H Hd] Hf (_ & _ & Hc & _) l c Hl Hx. apply Hc in Hx as [Hx|[c' Hx]]; [apply (Hf l c); [apply H; auto|assumption]|]. exact (Hd l c' c Hx Hl).
Qed.
Lemma after_join g1 g2 g j w w1 w2 : joined g1 g2 g -> After g1 j w w1 -> After g2 j w1 w2 -> After g j w w2.
Proof.
  intros [H Hd] (A1 & A2 & A3 & A4 & A5) (B1 & B2 & B3 & B4 & B5). split; [assumption|]. split; [congruence|]. split; [|split].
  - intros l. rewrite B3, A3. split.
    + intros [[Hx|[c Hx]]|[c Hx]]; [auto|right; exists c; apply H; auto|right; exists c; apply H; auto].
    + intros [Hx|[c Hx]]; [auto|]. apply H in Hx as [Hx|Hx]; eauto.
  - intros l c Hl. apply H in Hl as [Hl|Hl]; [|auto]. rewrite B5; [auto|]. intros c' Hx. exact (Hd l c c' Hl Hx).
  - intros l Hl. rewrite B5, A5; [reflexivity| |]; intros c Hx; apply (Hl c), H; auto.
Qed.

(** First run *)
Lemma keepc_refl w : keepc w w. Proof. intros l H. auto. Qed.
Lemma keepc_trans a b c : keepc a b -> keepc b c -> keepc a c.
Proof. intros H G l Hl. destruct (H l Hl) as [H1 H2]. destruct (G l H1) as [G1 G2]. split; [assumption|congruence]. Qed.
Lemma fresh_join a b c : keepc a b -> keepc b c -> ok b -> joined (fresh a b) (fresh b c) (fresh a c).
Proof.
  intros H G Hok. split.
  - intros l x. split.
    + intros (F1 & F2 & F3). destruct (claimed_dec E i D0 b l Hok) as [Hb|Hb]; [left|right; repeat split; assumption].
      destruct (G l Hb) as [_ Hf]. repeat split; [assumption|assumption|congruence].
    + intros [(F1 & F2 & F3)|(F1 & F2 & F3)].
      * destruct (G l F1) as [G1 G2]. repeat split; [assumption|assumption|congruence].
      * repeat split; [assumption| |assumption]. intros Hx. apply F2. apply (H l Hx).
  - intros l x y (F1 & _) (_ & F2 & _). contradiction.
Qed.
Lemma mapM_parts {A B} (f : A -> M B) (Q : files -> B -> Prop) l :
  (forall x w y w', In x l -> ok w -> f x w = (Ok y, w') -> keepc w w' /\ ok w' /\ Q (fresh w w') y) ->
  forall w ys w', ok w -> mapM f l w = (Ok ys, w') -> keepc w w' /\ ok w' /\ Parts Q (fresh w w') ys.
Proof.
  induction l as [|x l IH]; intros Hf w ys w' Hok H.
  - injection H as <- <-. split; [apply keepc_refl|]. split; [assumption|]. constructor. apply fresh_none.
  - cbn [mapM] in H. apply mbind_ok in H as (y & w1 & H1 & H). apply mbind_ok in H as (ys0 & w2 & H2 & H). unfold ret in H. injection H as <- <-.
    destruct (Hf x w y w1 (or_introl eq_refl) Hok H1) as (S1 & S2 & S3).
    destruct (IH (fun a w y w' Ha => Hf a w y w' (or_intror Ha)) w1 ys0 w2 S2 H2) as (G1 & G2 & G3).
    split; [eapply keepc_trans; eassumption|]. split; [assumption|]. econstructor; [exact S3|exact G3|apply fresh_join; assumption].
Qed.
Lemma mapM_again {X Y} (f : X -> M Y) (Q : files -> Y -> Prop) (ob : Y -> X) j :
  (forall g y, Q g y -> forall w z w', mnt_ok j D0 w -> free g j w -> f (ob y) w = (Ok z, w') -> z = y /\ After g j w w') ->
  forall g ys, Parts Q g ys -> forall w zs w', mnt_ok j D0 w -> free g j w -> mapM f (map ob ys) w = (Ok zs, w') -> zs = ys /\ After g j w w'.
Proof.
  intros Hf g ys Hp. induction Hp as [g Hn|g1 g2 g y ys Hy Hp IH Hj]; intros w zs w' Hok Hfr H; cbn [map mapM] in H.
  - unfold ret in H. injection H as <- <-. split; [reflexivity|apply after_none; assumption].
  - apply mbind_ok in H as (z & w1 & H1 & H). apply mbind_ok in H as (zs0 & w2 & H2 & H). unfold ret in H. injection H as <- <-.
    destruct (Hf g1 y Hy w z w1 Hok (free_left _ _ _ _ _ Hj Hfr) H1) as [-> A1].
    destruct (IH w1 zs0 w2 (proj1 A1) (free_right _ _ _ _ _ _ Hj Hfr A1) H2) as [-> A2]. split; [reflexivity|eapply after_join; eassumption].
Qed.
Lemma parts_forall {A} (P : files -> A -> Prop) (R : A -> Prop) g l : (forall g a, P g a -> R a) -> Parts P g l -> Forall R l.
Proof. intros H Hp. induction Hp; constructor; eauto. Qed.

Definition alike (o o' : obj) : Prop := (sto_name E o' = sto_name E o /\ dty_of o' = dty_of o) /\ (o' = OAtom ANone -> o = OAtom ANone) /\ rec_exists o' = true /\ is_serializable E o' = is_serializable E o.
Lemma alike_storable o o' : alike o o' -> is_storable E o' = is_storable E o.
Proof. intros [[H _] _]. unfold is_storable. rewrite H. reflexivity. Qed.
Definition First (comps : list str) (co : bool) (o o' : obj) (p : pser) (w w' : world) : Prop :=
  keepc w w' /\ ok w' /\ alike o o' /\ Again (fresh w w') comps co o' p.

(** ** The second run *)
Lemma sto2 o : is_storable E2 o = is_storable E o. Proof. apply is_storable_same. exact Hsame. Qed.
Lemma again_body g comps co o p :
  (forall K j cx w o2 p2 w2, sctx j comps cx -> mnt_ok j D0 w -> free g j w -> ser_body E2 (depth E2 K) (Some cx) co o w = (Ok (o2, p2), w2) -> o2 = o /\ p2 = p /\ After g j w w2) ->
  Again g comps co o p.
Proof. intros H K j cx w o2 p2 w2 Hs Hok Hf Hr. destruct K as [|K]; [discriminate|]. exact (H K j cx w o2 p2 w2 Hs Hok Hf Hr). Qed.

Definition rec_form (z : str) (ty : option str) (pre : bool) : pser :=
  PDict ([(key "target", PAtom (AStr z)); (key "sto_type", opt_str ty)] ++ (if pre then [(key "preload", PAtom (ABool true))] else [])).
Lemma m_write_after (F : senv) l c j w u w' : m_write F l c w = (Ok u, w') -> mnt_ok j D0 w ->
  mnt_ok j D0 w' /\ w_uuid w' = w_uuid w /\ (forall q, claimed2 j D0 w' q <-> claimed2 j D0 w q) /\ forall q, file_at (w_fs w') q = if loc_eq_dec q l then Some c else file_at (w_fs w) q.
Proof.
  intros H [Ha Hb]. pose proof H as H'. apply m_write_ok in H as (W1 & W2 & W3). split; [split; [rewrite W1; exact Ha|apply W3; exact Hb]|].
  apply m_write_inv in H'. inversion H' as [| |fs Hw Hu Hw1]; subst. split; [reflexivity|]. split; [|exact W2]. intros q. apply claimed_mounts. exact W1.
Qed.
Lemma again_rec g g1 comps z cs n' content pre c0 :
  fspath (from_path z) = Ok z -> places (from_path z) (cs ++ [n']) -> joined (single (D ++ comps ++ cs ++ [n']) c0) g1 g ->
  ((exists c d, content = OLeaf c d /\ none g1 /\ forall k, s_write E c k d = (Some c0, None)) \/
   (direct content /\ is_storable E content = true /\ exists p1, Again g1 (comps ++ cs) true content p1 /\ c0 = Json (to_json (s_float E) p1))) ->
  Again g comps false (ORec content (from_path z) pre None None) (typed n_record (rec_form z (rec_sto_type E content) pre)).
Proof.
  intros Hz Hpl Hj Hcon. apply again_body. intros K j cx w o2 p2 w2 Hs Hok Hf H.
  eapply (run_method E2 Hval2) in H as (q & H & ->); [|discriminate|discriminate|discriminate|cbn [ser_method]; reflexivity].
  assert (Hld : loaded content) by (destruct Hcon as [(c & d & -> & _)|(Hd & Hst & _)]; intros ty tt b cc Hx; [discriminate|subst content; discriminate Hst]).
  apply ser_rec_loaded in H as (dir & w0 & t' & w1 & out & we' & c' & _ & -> & H1 & H2 & -> & ->); [|assumption].
  assert (H1' : t' = from_path z /\ w1 = w).
  { unfold rec_target in H1. assert (Hc : is_complete (from_path z) = true) by (unfold from_path; destruct (path_split z) as [a b]; destruct (splitext b); reflexivity). rewrite Hc in H1. unfold ret in H1. injection H1 as <- <-. auto. }
  destruct H1' as [-> ->]. clear H1.
  apply ctx_write_gen in H2 as (p & local & nt & nm & w1 & H1 & H2 & H3 & H4 & H5). rewrite Hz in H1. injection H1 as <-.
  destruct (ctx_prepare_gave E2 j D0 Hc2 Hdir comps cx (from_path z) (cs ++ [n']) None w local nt w1 Hok Hs Hpl Hun2 H2) as (pp & u & n2 & Hpn & Hg & Hsl & _ & Hn & Hok1 & Hpath).
  rewrite removelast_last in Hg, Hsl, Hpath. rewrite HDD in Hpath. rewrite H3 in Hn. injection Hn as ->. set (l := D ++ comps ++ cs ++ [n']) in *.
  assert (Hgl : g l c0) by (apply Hj; left; split; reflexivity).
  assert (n2 = n') as ->.
  { destruct Hg as (m & touched & fs' & G1 & _ & _ & _ & _ & _ & _ & _ & _ & _ & G11).
    assert (Hx : comps ++ cs ++ [n2] = comps ++ cs ++ [n']).
    { apply G11. intros v s Hv Hr ->. apply (Hf l c0 Hgl). exists m, v, (comps ++ cs ++ [n']). rewrite HDD. auto. }
    apply app_inv_head, app_inv_head in Hx. injection Hx as ->. reflexivity. }
  destruct (gave_claims E2 j D0 Hret2 pp w u _ _ w1 Hg Hok) as (C1 & C2 & C3 & C4). rewrite HDD in C1, C2. fold l in C1, C2.
  assert (Hw1 : w_uuid w1 = w_uuid w) by (destruct Hg as (m & touched & fs' & _ & _ & _ & _ & _ & -> & _); reflexivity).
  assert (Hnm : t_name (from_path z) = Ok n') by (destruct Hpl as (sd & nm & _ & Hnm & _ & _ & _ & Hx); apply app_inj_tail in Hx as [_ ->]; exact Hnm).
  rewrite (rename_same z n' Hnm) in H4. injection H4 as <-. rewrite Hz.
  destruct H5 as [(-> & l0 & w3 & K1 & Hw)|(_ & _ & Hv & _)]; [|congruence].
  rewrite (Hpath w1 Hok1) in K1. injection K1 as <- <-. fold l in Hw.
  assert (Hmain : c' = content /\ After g j w w2).
  { destruct Hcon as [(c & d & -> & Hn & Hwr)|(Hdc & Hst & p1 & Hag & ->)].
    - unfold write_storable in Hw. rewrite (Hwri c (List.length (w_log w1)) 0 d), Hwr in Hw. apply mbind_ok in Hw as (uu & w3 & Hw & He). unfold ret in He. injection He as <- <-. split; [reflexivity|].
      destruct (m_write_after E2 l c0 j w1 uu w3 Hw Hok1) as (W1 & W2 & W3 & W4). split; [assumption|]. split; [congruence|]. split; [|split].
      + intros q. rewrite W3, C1. split; [intros [Hx| ->]; eauto|]. intros [Hx|[x Hx]]; [auto|]. apply Hj in Hx as [[-> _]|Hx]; [auto|destruct (Hn _ _ Hx)].
      + intros q x Hx. apply Hj in Hx as [[-> ->]|Hx]; [|destruct (Hn _ _ Hx)]. rewrite W4. destruct (loc_eq_dec l l); congruence.
      + intros q Hx. rewrite W4. destruct (loc_eq_dec q l) as [->|]; [destruct (Hx c0 Hgl)|apply C3].
    - rewrite write_container in Hw by (rewrite ?sto2; assumption). apply mbind_ok in Hw as (u1 & w3 & Hwa & Hw). apply mbind_ok in Hw as ([o1 q1] & w4 & Hwb & Hw).
      apply mbind_ok in Hw as (u2 & w5 & Hwc & Hw). unfold ret in Hw. injection Hw as <- <-.
      destruct (m_write_after E2 _ _ j _ _ _ Hwa Hok1) as (W1 & W2 & W3 & W4).
      assert (Hf3 : free g1 j w3).
      { intros q x Hx Hcl. apply W3, C1 in Hcl as [Hcl| ->]; [apply (Hf q x); [apply Hj; auto|assumption]|]. exact (proj2 Hj l _ x (conj eq_refl eq_refl) Hx). }
      destruct (Hag K j local w3 o1 q1 w4 Hsl W1 Hf3 Hwb) as (-> & -> & A1 & A2 & A3 & A4 & A5). split; [reflexivity|].
      destruct (m_write_after E2 _ _ j _ _ _ Hwc A1) as (X1 & X2 & X3 & X4). rewrite Hflo in X4. split; [assumption|]. split; [congruence|]. split; [|split].
      + intros q. rewrite X3, A3, W3, C1. split.
        * intros [[Hx| ->]|[x Hx]]; [auto|eauto|right; exists x; apply Hj; auto].
        * intros [Hx|[x Hx]]; [auto|]. apply Hj in Hx as [[-> _]|Hx]; eauto.
      + intros q x Hx. rewrite X4. apply Hj in Hx as [[-> ->]|Hx]; [destruct (loc_eq_dec l l); congruence|].
        destruct (loc_eq_dec q l) as [->|]; [exfalso; exact (proj2 Hj l _ x (conj eq_refl eq_refl) Hx)|auto].
      + intros q Hx. rewrite X4. destruct (loc_eq_dec q l) as [->|Hne]; [destruct (Hx _ Hgl)|]. rewrite A5 by (intros x Hy; apply (Hx x), Hj; auto).
        rewrite W4. destruct (loc_eq_dec q l); [contradiction|apply C3]. }
  destruct Hmain as [-> Haf]. split; [reflexivity|]. split; [|exact Haf]. unfold rec_form. cbn [exc_entry app]. rewrite app_nil_r.
  assert (Hrt : rec_sto_type E2 content = rec_sto_type E content) by (unfold rec_sto_type; destruct content; try reflexivity; apply sto_name_same; exact Hsame).
  rewrite Hrt. reflexivity.
Qed.
Lemma again_waiting comps ty path cx0 pre g : none g -> fspath (from_path path) = Ok path ->
  Again g comps false (ORec (OUnloaded (Some ty) (from_path path) (join2 D0 (join_sep comps)) cx0) (from_path path) pre None None) (typed n_record (rec_form path (Some ty) pre)).
Proof.
  intros Hn Hfp. apply again_body. intros K j cx w o2 p2 w2 Hs Hok Hf H.
  eapply (run_method E2 Hval2) in H as (q & H & ->); [|discriminate|discriminate|discriminate|cbn [ser_method]; reflexivity].
  pose proof Hok as [(m & Hm & Hmd & _) _]. pose proof Hs as (Hi & Hsub & _).
  assert (Hcd : ctx_dir cx w = (Ok (join2 D0 (join_sep comps)), w)).
  { unfold ctx_dir, m_dir_of. rewrite mbind_run, Hi, Hm, Hmd, Hsub. reflexivity. }
  unfold ser_rec, rec_store in H. rewrite mbind_run, mbind_run, Hcd in H. cbn zeta in H.
  destruct (str_eq_dec (join2 D0 (join_sep comps)) (join2 D0 (join_sep comps))) as [_|Hx]; [|congruence]. cbn [negb andb] in H. unfold ret in H.
  injection H as <- <- <-. split; [reflexivity|]. split; [|apply after_none; assumption]. rewrite Hfp. unfold rec_form. cbn [exc_entry app rec_sto_type]. rewrite app_nil_r. reflexivity.
Qed.

(** ** The first run *)
Section Step.
Variable n : nat.
Let F := depth E n.
Hypothesis IH : forall o co comps cx w o' p w', hold comps o -> boxed E o -> (co = true -> direct o) -> sctx i comps cx -> ok w ->
  f_ser F (Some cx) co o w = (Ok (o', p), w') -> First comps co o o' p w w'.

Lemma rec_first comps cx content t pre w o' q w' : loaded content ->
  (forall sd, t_subdir t = Some sd \/ t_subdir t = None /\ sd = [] -> hold (comps ++ filter named_component (components sd)) content) ->
  ordinary E content t -> boxed E content -> sctx i comps cx -> ok w ->
  ser_rec E F (Some cx) content t pre None None w = (Ok (o', q), w') -> First comps false (ORec content t pre None None) o' (typed n_record q) w w'.
Proof.
  intros Hld Hcs Ho Hbx Hs Hok H.
  assert (Hc0 : exists cs0, hold cs0 content) by (destruct (t_subdir t) as [sd|] eqn:Et; eexists; apply Hcs; eauto). destruct Hc0 as [cs0 Hc0].
  apply ser_rec_loaded in H as (dir & w0 & t' & w1 & out & we' & c' & _ & -> & H1 & H2 & -> & ->); [|assumption].
  assert (Hwr : (exists c d, content = OLeaf c d) \/ (direct content /\ is_storable E content = true)).
  { pose proof H2 as H3. apply ctx_write_gen in H3 as (p & local & nt & nm & w2 & _ & _ & _ & _ & [(_ & l & w3 & _ & Hw)|(_ & _ & Hv & _)]); [|congruence].
    unfold write_storable in Hw. destruct content; try discriminate Hw; try (left; eauto; fail);
      (right; split; [discriminate|]; destruct (is_storable E _); [reflexivity|discriminate]). }
  assert (Hwu : (exists c d, content = OLeaf c d) \/ is_storable E content = true) by tauto.
  destruct (rec_target_in E content t w t' w1 Ho (hold_usual E D0 wb _ cs0 content Hc0 Hwu) H1) as (sd & cs & Hsd & Hp & Hrl).
  pose proof (Hcs sd Hsd) as Hc. rewrite <- Hrl in Hc.
  apply rec_target_still in H1 as (ku & -> & _). set (w1 := mkWorld (w_fs w) (w_mounts w) (w_inputs w) ku (w_log w)) in *.
  assert (Hok1 : ok w1) by exact Hok.
  destruct (ctx_write_inv E i D0 Hcwd Hdir Hun F cx comps t' cs content w1 out we' c' w' Hok1 Hs Hp H2)
    as (pp & u & n' & w2 & local & Hn' & Hg & Hok2 & Hpo & (z & Z1 & Z2 & Z3) & Hsl & [(-> & Hw)|(_ & _ & Hv & _)]); [|congruence].
  subst out. destruct (gave_claims E i D0 Hret pp w1 u _ _ w2 Hg Hok1) as (C1 & C2 & C3 & C4).
  fold D in Hw, C1, C2, C4. set (l := D ++ comps ++ removelast cs ++ [n']) in *.
  assert (Cw : forall q, claimed w1 q <-> claimed w q) by (intros q; apply claimed_mounts; reflexivity).
  assert (Hnew : ~ claimed w l) by (intros Hx; apply C2, Cw; assumption).
  assert (Hmain : exists c0 g1, rec_sto_type E c' = rec_sto_type E content /\ keepc w w' /\ ok w' /\ joined (single l c0) g1 (fresh w w') /\
   ((exists c d, c' = OLeaf c d /\ none g1 /\ forall k, s_write E c k d = (Some c0, None)) \/
    (direct c' /\ is_storable E c' = true /\ exists p1, Again g1 (comps ++ removelast cs) true c' p1 /\ c0 = Json (to_json (s_float E) p1)))).
  { destruct Hwr as [(c & d & ->)|[Hdc Hst]].
    - unfold write_storable in Hw. destruct (s_write E c (List.length (w_log w2)) d) as [left e] eqn:Ew.
      apply mbind_ok in Hw as (uu & w3 & Hw & He). destruct e as [e|]; [discriminate|]. unfold ret in He. injection He as <- <-.
      destruct (Hfai c _ d left Ew) as (x & -> & _). apply m_write_ok in Hw as (W1 & W2 & W3).
      assert (Cl : forall q, claimed w3 q <-> claimed w q \/ q = l).
      { intros q. rewrite (claimed_mounts E i D0 w2 w3 q W1), C1, Cw. reflexivity. }
      exists x, (fun _ _ => False). split; [reflexivity|]. split; [|split; [|split]].
      + intros q Hq. split; [apply Cl; auto|]. rewrite W2. destruct (loc_eq_dec q l) as [->|]; [contradiction|]. apply C3.
      + destruct Hok2 as [Ha Hb2]. split; [|auto]. rewrite W1. exact Ha.
      + split; [|intros q y y' _ []]. intros q y. split.
        * intros (F1 & F2 & F3). apply Cl in F1 as [F1| ->]; [contradiction|]. left. split; [reflexivity|]. rewrite W2 in F3. destruct (loc_eq_dec l l); congruence.
        * intros [[-> ->]|[]]. repeat split; [apply Cl; auto|assumption|]. rewrite W2. destruct (loc_eq_dec l l); congruence.
      + left. exists c, d. split; [reflexivity|]. split; [intros q y []|]. intros k. rewrite <- (Hwri c 0 k d), (Hwri c 0 (List.length (w_log w2)) d). exact Ew.
    - unfold F in Hw. rewrite write_container in Hw by assumption. apply mbind_ok in Hw as (u1 & w3 & Hw1 & Hw). apply mbind_ok in Hw as ([o1 p1] & w4 & Hw2 & Hw).
      apply mbind_ok in Hw as (u2 & w5 & Hw3 & Hw). unfold ret in Hw. injection Hw as <- <-.
      apply m_write_ok in Hw1 as (W1 & W2 & W3). apply m_write_ok in Hw3 as (X1 & X2 & X3).
      assert (Hok3 : ok w3). { destruct Hok2 as [Ha Hb2]. split; [|auto]. rewrite W1. exact Ha. }
      destruct (IH content true _ local w3 _ _ w4 Hc Hbx (fun _ => Hdc) Hsl Hok3 Hw2) as (S1 & S2 & S3 & S4). pose proof (alike_storable _ _ S3) as Hst'. destruct S3 as [[S3 Sd] _]. assert (Hdc' : direct o1) by (unfold direct in *; congruence).
      assert (Cl : forall q, claimed w3 q <-> claimed w q \/ q = l).
      { intros q. rewrite (claimed_mounts E i D0 w2 w3 q W1), C1, Cw. reflexivity. }
      assert (Cl5 : forall q, claimed w5 q <-> claimed w4 q) by (intros q; apply claimed_mounts; exact X1).
      assert (H4l : claimed w4 l) by (apply S1, Cl; auto).
      exists (Json (to_json (s_float E) p1)), (fresh w3 w4). split; [|split; [|split; [|split]]].
      + destruct content; try discriminate Hst; destruct o1; try discriminate Hst'; try exact S3; try discriminate Sd; try (rewrite Hst in Hst'; discriminate Hst').
      + intros q Hq. assert (Hne : q <> l) by (intros ->; contradiction). destruct (S1 q) as [A1 A2]; [apply Cl; auto|]. split; [apply Cl5; assumption|].
        rewrite X2. destruct (loc_eq_dec q l) as [|]; [contradiction|]. rewrite A2, W2. destruct (loc_eq_dec q l) as [|]; [contradiction|]. apply C3.
      + destruct S2 as [Ha Hb2]. split; [|auto]. rewrite X1. exact Ha.
      + split.
        * intros q y. split.
          -- intros (F1 & F2 & F3). destruct (loc_eq_dec q l) as [->|Hne]; [left; split; [reflexivity|]; rewrite X2 in F3; destruct (loc_eq_dec l l); congruence|]. right. repeat split.
             ++ apply Cl5. assumption.
             ++ intros Hz. apply Cl in Hz as [Hz|Hz]; contradiction.
             ++ rewrite X2 in F3. destruct (loc_eq_dec q l); [contradiction|assumption].
          -- intros [[-> ->]|(B1 & B2 & B3)].
             ++ repeat split; [apply Cl5; assumption|assumption|]. rewrite X2. destruct (loc_eq_dec l l); congruence.
             ++ assert (Hne : q <> l) by (intros ->; apply B2, Cl; auto). repeat split; [apply Cl5; assumption|intros Hx; apply B2, Cl; auto|].
                rewrite X2. destruct (loc_eq_dec q l); [contradiction|assumption].
        * intros q y y' [-> _] (_ & B2 & _). apply B2, Cl. auto.
      + right. split; [assumption|]. split; [congruence|]. exists p1. split; [exact S4|reflexivity]. }
  destruct Hmain as (c0 & g1 & Hty & Hk & Hok' & Hj & Hcon). split; [assumption|]. split; [assumption|]. split; [split; [split; reflexivity|split; [discriminate|split; reflexivity]]|].
  rewrite Z1. cbn [exc_entry app]. rewrite app_nil_r, <- Hty. exact (again_rec (fresh w w') g1 comps z (removelast cs) n' c' pre c0 Z1 Hpo Hj Hcon).
Qed.
Lemma waiting_first comps cx ty path cx0 t pre w o' q w' : fspath (from_path path) = Ok path -> sctx i comps cx -> ok w ->
  ser_rec E F (Some cx) (OUnloaded (Some ty) (from_path path) (join2 D0 (join_sep comps)) cx0) t pre None None w = (Ok (o', q), w') ->
  First comps false (ORec (OUnloaded (Some ty) (from_path path) (join2 D0 (join_sep comps)) cx0) t pre None None) o' (typed n_record q) w w'.
Proof.
  intros Hfp Hs Hok H. pose proof Hok as [(m & Hm & Hmd & _) _]. pose proof Hs as (Hi & Hsub & _).
  assert (Hcd : ctx_dir cx w = (Ok (join2 D0 (join_sep comps)), w)).
  { unfold ctx_dir, m_dir_of. rewrite mbind_run, Hi, Hm, Hmd, Hsub. reflexivity. }
  unfold ser_rec, rec_store in H. rewrite mbind_run, mbind_run, Hcd in H. cbn zeta in H.
  destruct (str_eq_dec (join2 D0 (join_sep comps)) (join2 D0 (join_sep comps))) as [_|Hx]; [|congruence]. cbn [negb andb] in H. unfold ret in H.
  injection H as <- <- <-. split; [apply keepc_refl|]. split; [assumption|]. split; [split; [split; reflexivity|split; [discriminate|split; reflexivity]]|].
  rewrite Hfp. cbn [exc_entry app rec_sto_type]. rewrite app_nil_r. apply again_waiting; [apply fresh_none|assumption].
Qed.

(** Items *)
Definition Item (comps : list str) (g : files) (y : obj * option pser) : Prop :=
  exists p, snd y = Some p /\ rec_exists (fst y) = true /\ Again g comps false (fst y) p.
Definition Plain (comps : list str) (g : files) (y : obj * pser) : Prop := is_storable E (fst y) = false /\ Again g comps false (fst y) (snd y).
Lemma item_run (G : senv) (FG : fns) cx o w y w' : rec_exists o = true -> ser_item G FG cx o w = (Ok y, w') ->
  exists p, f_ser FG cx false o w = (Ok (fst y, p), w') /\ snd y = Some p.
Proof.
  intros Hr H. assert (H' : (x <- f_ser FG cx false o;; ret (fst x, Some (snd x))) w = (Ok y, w')).
  { unfold ser_item in H. destruct o; try exact H. rewrite Hr, orb_true_r in H. exact H. }
  apply mbind_ok in H' as ([o1 p1] & w1 & H1 & H2). unfold ret in H2. injection H2 as <- <-. exists p1. split; [exact H1|reflexivity].
Qed.
Lemma item_first comps cx o w y w' : hold comps o -> boxed E o -> sctx i comps cx -> ok w -> ser_item E F (Some cx) o w = (Ok y, w') ->
  keepc w w' /\ ok w' /\ Item comps (fresh w w') y.
Proof.
  intros Hb Hbx Hs Hok H. apply item_run in H as (p & H & Hp); [|destruct o; try reflexivity; inversion Hb; reflexivity].
  destruct (IH o false comps cx w (fst y) p w' Hb Hbx) as (K1 & K2 & (_ & _ & K3 & _) & K4); [discriminate|assumption|assumption|exact H|].
  split; [assumption|]. split; [assumption|]. exists p. auto.
Qed.
Lemma item_again comps K j cx g y : Item comps g y -> sctx j comps cx -> forall w z w', mnt_ok j D0 w -> free g j w ->
  ser_item E2 (depth E2 K) (Some cx) (fst y) w = (Ok z, w') -> z = y /\ After g j w w'.
Proof.
  intros (p & Hp & Hr & Ha) Hs w z w' Hok Hf H. apply item_run in H as (p2 & H & Hp2); [|assumption].
  destruct (Ha K j cx w (fst z) p2 w' Hs Hok Hf H) as (A1 & -> & A3). split; [|assumption]. destruct y, z. cbn in *. congruence.
Qed.
Lemma plain_first comps cx o w y w' : hold comps o -> boxed E o -> is_storable E o = false -> sctx i comps cx -> ok w -> ser_plain_item E F (Some cx) o w = (Ok y, w') ->
  keepc w w' /\ ok w' /\ Plain comps (fresh w w') y.
Proof.
  intros Hb Hbx Hst Hs Hok H. unfold ser_plain_item in H. rewrite Hst in H. destruct y as [o1 p1].
  destruct (IH o false comps cx w o1 p1 w' Hb Hbx) as (K1 & K2 & K3 & K4); [discriminate|assumption|assumption|exact H|].
  split; [assumption|]. split; [assumption|]. split; [cbn; rewrite (alike_storable _ _ K3); exact Hst|exact K4].
Qed.
Lemma plain_again comps K j cx g y : Plain comps g y -> sctx j comps cx -> forall w z w', mnt_ok j D0 w -> free g j w ->
  ser_plain_item E2 (depth E2 K) (Some cx) (fst y) w = (Ok z, w') -> z = y /\ After g j w w'.
Proof.
  intros (Hst & Ha) Hs w z w' Hok Hf H. unfold ser_plain_item in H. rewrite sto2, Hst in H. destruct z as [o2 p2].
  destruct (Ha K j cx w o2 p2 w' Hs Hok Hf H) as (A1 & A2 & A3). split; [|assumption]. destruct y. cbn in *. congruence.
Qed.
Lemma no_storable (G : senv) l : (forall x, In x l -> is_storable G x = false) -> existsb (is_storable G) l = false.
Proof. intros H. destruct (existsb (is_storable G) l) eqn:Ex; [|reflexivity]. apply existsb_exists in Ex as (x & Hx & Hy). rewrite H in Hy; [discriminate|assumption]. Qed.
Lemma plains_bare comps g ys (G : senv) : is_storable G = is_storable E -> Parts (Plain comps) g ys -> forall x, In x (map fst ys) -> is_storable G x = false.
Proof.
  intros -> Hp x Hx. apply in_map_iff in Hx as (y & <- & Hy). pose proof (parts_forall (Plain comps) (fun y => is_storable E (fst y) = false) g ys (fun g a H => proj1 H) Hp) as Hf.
  rewrite Forall_forall in Hf. auto.
Qed.
Lemma list_first comps cx l w o' p w' : (forall x, In x l -> hold comps x) -> (forall x, In x l -> boxed E x /\ is_storable E x = false) -> sctx i comps cx -> ok w ->
  ser_list E F (Some cx) l w = (Ok (o', p), w') -> First comps false (OList l) o' p w w'.
Proof.
  intros Hh Hb Hs Hok H. unfold ser_list in H. apply mbind_ok in H as (ys & w1 & H1 & H). cbn zeta in H. unfold ret in H. injection H as <- <- <-.
  destruct (mapM_parts (ser_plain_item E F (Some cx)) (Plain comps) l) with (w := w) (ys := ys) (w' := w1) as (K1 & K2 & K3); [|assumption|assumption|].
  { intros x w0 y w9 Hx Hok0 Hy. destruct (Hb x Hx). eapply plain_first; eauto. }
  rewrite no_storable by (intros x Hx; apply (Hb x Hx)).
  split; [assumption|]. split; [assumption|]. split; [split; [split; reflexivity|split; [discriminate|split; reflexivity]]|].
  apply again_body. intros K j cx2 wa o2 p2 wc Hs2 Hok2 Hf2 H2. cbn [ser_body] in H2. unfold ser_list in H2. apply mbind_ok in H2 as (zs & wd & H3 & H2). cbn zeta in H2. unfold ret in H2. injection H2 as <- <- <-.
  destruct (mapM_again (ser_plain_item E2 (depth E2 K) (Some cx2)) (Plain comps) fst j) with (g := fresh w w1) (ys := ys) (w := wa) (zs := zs) (w' := wd) as [-> A]; [|assumption|assumption|assumption|assumption|].
  { intros g y Hy. eapply plain_again; eassumption. }
  split; [reflexivity|]. split; [|assumption]. rewrite no_storable; [reflexivity|]. intros x Hx. rewrite sto2. eapply (plains_bare comps _ ys E); [reflexivity|exact K3|exact Hx].
Qed.
Lemma keyed {X} (ks : list X) {A B} (h : A -> B) (ys : list A) : List.length ks = List.length ys ->
  map (fun kx : X * A => (fst kx, h (snd kx))) (combine ks ys) = combine ks (map h ys).
Proof. revert ys. induction ks as [|k ks IHk]; intros [|y ys] Hl; cbn in *; try reflexivity; try discriminate. f_equal. apply IHk. congruence. Qed.
Lemma dict_first comps cx d w o' p w' : (forall k x, In (k, x) d -> hold comps x) -> (forall k x, In (k, x) d -> boxed E x /\ is_storable E x = false) -> sctx i comps cx -> ok w ->
  ser_dict E F (Some cx) d w = (Ok (o', p), w') -> First comps false (ODict d) o' p w w'.
Proof.
  intros Hh Hb Hs Hok H. unfold ser_dict in H. apply mbind_ok in H as (xs & w1 & H1 & H). cbn zeta in H. unfold ret in H. injection H as <- <- <-.
  apply mapM_keyed_ok in H1 as (ys & H1 & -> & Hlen).
  destruct (mapM_parts (ser_plain_item E F (Some cx)) (Plain comps) (map snd d)) with (w := w) (ys := ys) (w' := w1) as (K1 & K2 & K3); [|assumption|assumption|].
  { intros x w0 y w9 Hx Hok0 Hy. apply in_map_iff in Hx as ([k v] & <- & Hx). destruct (Hb k v Hx). eapply plain_first; eauto. }
  rewrite no_storable by (intros x Hx; apply in_map_iff in Hx as ([k v] & <- & Hx); apply (Hb k v Hx)).
  split; [assumption|]. split; [assumption|]. split; [split; [split; reflexivity|split; [discriminate|split; reflexivity]]|].
  rewrite (keyed (map fst d) fst ys Hlen), (keyed (map fst d) snd ys Hlen).
  assert (Hl2 : List.length (map fst d) = List.length (map fst ys)) by (rewrite (map_length fst ys); assumption).
  apply again_body. intros K j cx2 wa o2 p2 wc Hs2 Hok2 Hf2 H2. cbn [ser_body] in H2. unfold ser_dict in H2. apply mbind_ok in H2 as (xs & wd & H3 & H2). cbn zeta in H2. unfold ret in H2. injection H2 as <- <- <-.
  apply mapM_keyed_ok in H3 as (zs & H3 & -> & Hlen2). rewrite combine_snd in H3 by assumption.
  destruct (mapM_again (ser_plain_item E2 (depth E2 K) (Some cx2)) (Plain comps) fst j) with (g := fresh w w1) (ys := ys) (w := wa) (zs := zs) (w' := wd) as [-> A]; [|assumption|assumption|assumption|assumption|].
  { intros g y Hy. eapply plain_again; eassumption. }
  rewrite combine_fst in * by assumption. rewrite (keyed (map fst d) fst ys Hlen), (keyed (map fst d) snd ys Hlen). rewrite combine_snd by assumption.
  split; [reflexivity|]. split; [|assumption]. rewrite no_storable; [reflexivity|]. intros x Hx. rewrite sto2. eapply (plains_bare comps _ ys E); [reflexivity|exact K3|exact Hx].
Qed.
Lemma items_there comps g ys : Parts (Item comps) g ys -> Forall (fun y : obj * option pser => snd y <> None) ys.
Proof. apply parts_forall. intros g0 a (p & Hp & _). congruence. Qed.
Lemma seq_first comps cx co q s w o' p w' : (forall x, In x s -> hold comps x) -> (forall x, In x s -> boxed E x) -> sctx i comps cx -> ok w ->
  ser_body E F (Some cx) co (OSeq q s []) w = (Ok (o', p), w') -> First comps co (OSeq q s []) o' p w w'.
Proof.
  intros Hh Hb Hs Hok H. eapply (run_method E Hval) in H as (p1 & H & ->); [|discriminate|discriminate|discriminate|cbn [ser_method]; reflexivity].
  unfold ser_seq in H. apply mbind_ok in H as (r1 & w1 & H1 & H). rewrite rm_none in H1. injection H1 as _ <-.
  apply mbind_ok in H as (ys & w2 & H2 & H).
  destruct (mapM_parts (ser_item E F (Some cx)) (Item comps) s) with (w := w) (ys := ys) (w' := w2) as (K1 & K2 & K3); [|assumption|assumption|].
  { intros x w0 y w9 Hx Hok0 Hy. eapply item_first; eauto. }
  destruct (kept_items ys (items_there _ _ _ K3)) as [D1 D2]. rewrite D1 in H.
  apply mbind_ok in H as (r2 & w3 & H3 & H). rewrite rm_none in H3. injection H3 as _ <-. unfold ret in H. injection H as <- <- <-.
  assert (Hu : (if s_clean E then [] else []) = @nil obj) by (destruct (s_clean E); reflexivity). rewrite Hu.
  split; [assumption|]. split; [assumption|]. split; [split; [split; reflexivity|split; [discriminate|split; reflexivity]]|].
  apply again_body. intros K j cx2 wa o2 p2 wc Hs2 Hok2 Hf2 H4. eapply (run_method E2 Hval2) in H4 as (p3 & H4 & ->); [|discriminate|discriminate|discriminate|cbn [ser_method]; reflexivity].
  unfold ser_seq in H4. apply mbind_ok in H4 as (r3 & wd & H5 & H4). rewrite rm_none in H5. injection H5 as _ <-.
  apply mbind_ok in H4 as (zs & wd & H5 & H4).
  destruct (mapM_again (ser_item E2 (depth E2 K) (Some cx2)) (Item comps) fst j) with (g := fresh w w2) (ys := ys) (w := wa) (zs := zs) (w' := wd) as [-> A]; [|assumption|assumption|assumption|assumption|].
  { intros g y Hy. eapply item_again; eassumption. }
  rewrite D1 in H4. apply mbind_ok in H4 as (r4 & we & H6 & H4). rewrite rm_none in H6. injection H6 as _ <-. unfold ret in H4. injection H4 as <- <- <-.
  split; [|split; [reflexivity|assumption]]. destruct (s_clean E2); reflexivity.
Qed.
Lemma map_first comps cx co q s w o' p w' : (forall k x, In (k, x) s -> hold comps x) -> (forall k x, In (k, x) s -> boxed E x) -> sctx i comps cx -> ok w ->
  ser_body E F (Some cx) co (OMap q s []) w = (Ok (o', p), w') -> First comps co (OMap q s []) o' p w w'.
Proof.
  intros Hh Hb Hs Hok H. eapply (run_method E Hval) in H as (p1 & H & ->); [|discriminate|discriminate|discriminate|cbn [ser_method]; reflexivity].
  unfold ser_map in H. apply mbind_ok in H as (r1 & w1 & H1 & H). rewrite rm_none' in H1. injection H1 as _ <-.
  apply mbind_ok in H as (xs & w2 & H2 & H). apply mapM_keyed_ok in H2 as (ys & H2 & -> & Hlen).
  destruct (mapM_parts (ser_item E F (Some cx)) (Item comps) (map snd s)) with (w := w) (ys := ys) (w' := w2) as (K1 & K2 & K3); [|assumption|assumption|].
  { intros x w0 y w9 Hx Hok0 Hy. apply in_map_iff in Hx as ([k v] & <- & Hx). eapply item_first; eauto. }
  destruct (kept_items ys (items_there _ _ _ K3)) as [D1 D2]. rewrite combine_snd, D1 in H by assumption.
  apply mbind_ok in H as (r2 & w3 & H3 & H). rewrite rm_none in H3. injection H3 as _ <-. unfold ret in H. injection H as <- <- <-.
  split; [assumption|]. split; [assumption|]. split; [split; [split; reflexivity|split; [discriminate|split; reflexivity]]|].
  rewrite (keyed (map fst s) fst ys Hlen). assert (Hl2 : List.length (map fst s) = List.length (map fst ys)) by (rewrite (map_length fst ys); assumption).
  apply again_body. intros K j cx2 wa o2 p2 wc Hs2 Hok2 Hf2 H4. eapply (run_method E2 Hval2) in H4 as (p3 & H4 & ->); [|discriminate|discriminate|discriminate|cbn [ser_method]; reflexivity].
  unfold ser_map in H4. apply mbind_ok in H4 as (r3 & wd & H5 & H4). rewrite rm_none' in H5. injection H5 as _ <-.
  apply mbind_ok in H4 as (xs & wd & H5 & H4). apply mapM_keyed_ok in H5 as (zs & H5 & -> & Hlen2). rewrite combine_snd in H5 by assumption.
  destruct (mapM_again (ser_item E2 (depth E2 K) (Some cx2)) (Item comps) fst j) with (g := fresh w w2) (ys := ys) (w := wa) (zs := zs) (w' := wd) as [-> A]; [|assumption|assumption|assumption|assumption|].
  { intros g y Hy. eapply item_again; eassumption. }
  rewrite combine_fst in H4 by assumption. rewrite combine_snd, D1 in H4 by assumption.
  apply mbind_ok in H4 as (r4 & we & H6 & H4). rewrite rm_none in H6. injection H6 as _ <-. unfold ret in H4. injection H4 as <- <- <-.
  rewrite (keyed (map fst s) fst ys Hlen). split; [reflexivity|]. split; [reflexivity|assumption].
Qed.

(** Fields *)
Lemma fields_first comps cx fds : sctx i comps cx -> NoDup (map mf_name fds) -> forall fs w fs' d w',
  (forall f v, In f fds -> mf_noser f = false -> assoc (mf_name f) fs = Some v -> hold comps v /\ boxed E v) ->
  ok w -> ser_fields_m F (Some cx) fds fs w = (Ok (fs', d), w') ->
  keepc w w' /\ ok w' /\ (forall k, ~ In k (map mf_name fds) -> assoc k fs' = assoc k fs) /\
  forall K j cx2 wa fs2 d2 wc, sctx j comps cx2 -> mnt_ok j D0 wa -> free (fresh w w') j wa ->
    ser_fields_m (depth E2 K) (Some cx2) fds fs' wa = (Ok (fs2, d2), wc) -> fs2 = fs' /\ d2 = d /\ After (fresh w w') j wa wc.
Proof.
  intros Hs. induction fds as [|f fds IHf]; intros Hnd fs w fs' d w' Hb Hok H.
  - injection H as <- <- <-. split; [apply keepc_refl|]. split; [assumption|]. split; [reflexivity|].
    intros K j cx2 wa fs2 d2 wc Hs2 Hok2 Hf2 H2. injection H2 as <- <- <-. split; [reflexivity|]. split; [reflexivity|]. apply after_none; [apply fresh_none|assumption].
  - cbn [map] in Hnd. inversion Hnd as [|? ? N1 N2]; subst. cbn [ser_fields_m] in H. cbn [map]. destruct (mf_noser f) eqn:En.
    + destruct (IHf N2 fs w fs' d w') as (G1 & G2 & G3 & G4); [intros f0 v Hf0; apply Hb; right; assumption|assumption|assumption|].
      split; [assumption|]. split; [assumption|]. split; [intros k Hk; apply G3; intros Hx; apply Hk; right; assumption|].
      intros K j cx2 wa fs2 d2 wc Hs2 Hok2 Hf2 H2. cbn [ser_fields_m] in H2. rewrite En in H2. exact (G4 K j cx2 wa fs2 d2 wc Hs2 Hok2 Hf2 H2).
    + destruct (assoc (mf_name f) fs) as [v|] eqn:Ea; [|discriminate].
      destruct (Hb f v (or_introl eq_refl) En Ea) as [Hv Hbv].
      assert (Hcase : forall (G : fns) cxx fs0 wx rx, assoc (mf_name f) fs0 = Some rx -> rx = OAtom ANone \/ (rx <> OAtom ANone /\
         ser_fields_m G cxx (f :: fds) fs0 wx = (x <- f_ser G cxx false rx;; y <- ser_fields_m G cxx fds (assoc_set (mf_name f) (fst x) fs0);; ret (fst y, (AStr (mf_name f), snd x) :: snd y)) wx)).
      { intros G cxx fs0 wx rx Hrx. cbn [ser_fields_m]. rewrite En, Hrx. destruct rx as [[| | | |]|l|dd|c x|c x u|q x u|q x u|? ? ? ? ?|? ? ? ?|?|?]; try (right; split; [discriminate|reflexivity]). left. reflexivity. }
      destruct (Hcase F (Some cx) fs w v Ea) as [-> | [Hnn H']].
      * destruct (IHf N2 fs w fs' d w') as (G1 & G2 & G3 & G4); [intros f0 v Hf0; apply Hb; right; assumption|assumption|assumption|].
        split; [assumption|]. split; [assumption|]. split; [intros k Hk; apply G3; intros Hx; apply Hk; right; assumption|].
        intros K j cx2 wa fs2 d2 wc Hs2 Hok2 Hf2 H2. cbn [ser_fields_m] in H2. rewrite En, (G3 _ N1), Ea in H2. exact (G4 K j cx2 wa fs2 d2 wc Hs2 Hok2 Hf2 H2).
      * assert (H0 : ser_fields_m F (Some cx) (f :: fds) fs w = (Ok (fs', d), w')) by (cbn [ser_fields_m]; rewrite En, Ea; exact H).
        rewrite H' in H0. clear H H'. rename H0 into H'. apply mbind_ok in H' as ([o1 p1] & w1 & H1 & H'). apply mbind_ok in H' as ([fs1 d1] & w2 & H2 & H'). unfold ret in H'. cbn [fst snd] in H', H2. injection H' as <- <- <-.
        destruct (IH v false comps cx w o1 p1 w1 Hv Hbv) as (S1 & S2 & (_ & S3 & _) & S4); [discriminate|assumption|assumption|assumption|].
        destruct (IHf N2 (assoc_set (mf_name f) o1 fs) w1 fs1 d1 w2) as (G1 & G2 & G3 & G4); [|assumption|assumption|].
        { intros f0 v0 Hf0 Hno Ha. apply (Hb f0 v0); [right; assumption|assumption|]. rewrite <- Ha. symmetry. apply FsProof.assoc_set_other. intros Hx. apply N1. rewrite Hx. apply in_map. assumption. }
        assert (Ho : assoc (mf_name f) fs1 = Some o1) by (rewrite (G3 _ N1); apply FsProof.assoc_set_same).
        assert (Hj : joined (fresh w w1) (fresh w1 w2) (fresh w w2)) by (apply fresh_join; assumption).
        split; [eapply keepc_trans; eassumption|]. split; [assumption|]. split.
        { intros k Hk. rewrite G3 by (intros Hx; apply Hk; right; assumption). apply FsProof.assoc_set_other. intros Hx. apply Hk. left. exact Hx. }
        intros K j cx2 wa fs2 d2 wc Hs2 Hok2 Hf2 H. destruct (Hcase (depth E2 K) (Some cx2) fs1 wa o1 Ho) as [Hx|[_ Hx]]; [exfalso; apply Hnn; apply S3; exact Hx|]. rewrite Hx in H. clear Hx.
        apply mbind_ok in H as ([o2 p2] & wd & H3 & H). apply mbind_ok in H as ([fs3 d3] & we & H4 & H). unfold ret in H. cbn [fst snd] in H, H4. injection H as <- <- <-.
        destruct (S4 K j cx2 wa o2 p2 wd Hs2 Hok2 (free_left _ _ _ _ _ Hj Hf2) H3) as (-> & -> & A1). rewrite (FsProof.assoc_set_id _ _ _ Ho) in H4.
        destruct (G4 K j cx2 wd fs3 d3 we Hs2 (proj1 A1) (free_right _ _ _ _ _ _ Hj Hf2 A1) H4) as (-> & -> & A2).
        split; [reflexivity|]. split; [reflexivity|]. eapply after_join; eassumption.
Qed.
Lemma model_first comps cx co c fds fs w o' p w' : k_kind (s_class E c) = SModel fds -> NoDup (map mf_name fds) ->
  (forall f v, In f fds -> mf_noser f = false -> assoc (mf_name f) fs = Some v -> hold comps v /\ boxed E v) -> sctx i comps cx -> ok w ->
  ser_body E F (Some cx) co (OModel c fs []) w = (Ok (o', p), w') -> First comps co (OModel c fs []) o' p w w'.
Proof.
  intros Hk Hn Hf Hs Hok H. destruct (k_ser (s_class E c)) as [nm|] eqn:En.
  2:{ exfalso. cbn [ser_body ser_method] in H. rewrite En in H. apply mbind_ok in H as (u & w1 & H1 & _). apply invalid_ok in H1 as [_ Hv]. congruence. }
  pose proof Hreg as [Hr _]. specialize (Hr c fds nm Hk En).
  assert (Hm : ser_method E F (Some cx) (OModel c fs []) = Some (nm, ser_model E F (Some cx) c fds fs [])) by (cbn [ser_method]; rewrite En, Hr, Hk; reflexivity).
  eapply (run_method E Hval) in H as (q & H & ->); [| | | |exact Hm]; try discriminate. unfold ser_model in H.
  apply mbind_ok in H as (r1 & w1 & H1 & H). unfold F in H1. rewrite rm_none in H1. injection H1 as <- <-.
  apply mbind_ok in H as ([fs' dd] & w2 & H2 & H). unfold ret in H. cbn [fst snd] in H. injection H as <- <- <-.
  assert (Hu : (if s_clean E then [] else []) = @nil obj) by (destruct (s_clean E); reflexivity). rewrite Hu.
  destruct (fields_first comps cx fds Hs Hn fs w fs' dd w2 Hf Hok H2) as (G1 & G2 & G3 & G4).
  split; [assumption|]. split; [assumption|]. split; [split; [split; reflexivity|split; [discriminate|split; reflexivity]]|].
  apply again_body. intros K j cx2 wa o2 p2 wc Hs2 Hok2 Hf2 H4.
  assert (Hm2 : ser_method E2 (depth E2 K) (Some cx2) (OModel c fs' []) = Some (nm, ser_model E2 (depth E2 K) (Some cx2) c fds fs' [])).
  { cbn [ser_method]. pose proof Hsame as (Hcl & _). rewrite Hcl, En, Hk, (ser_ty_same E E2 Hsame nm), Hr. reflexivity. }
  eapply (run_method E2 Hval2) in H4 as (p3 & H4 & ->); [| | | |exact Hm2]; try discriminate. unfold ser_model in H4.
  apply mbind_ok in H4 as (r3 & wd & H5 & H4). rewrite rm_none in H5. injection H5 as <- <-.
  apply mbind_ok in H4 as ([fs3 d3] & we & H6 & H4). unfold ret in H4. cbn [fst snd] in H4. injection H4 as <- <- <-.
  destruct (G4 K j cx2 wa fs3 d3 we Hs2 Hok2 Hf2 H6) as (-> & -> & A). split; [|split; [reflexivity|assumption]]. destruct (s_clean E2); reflexivity.
Qed.
Lemma step_first o co comps cx w o' p w' : hold comps o -> boxed E o -> (co = true -> direct o) -> sctx i comps cx -> ok w ->
  ser_body E F (Some cx) co o w = (Ok (o', p), w') -> First comps co o o' p w w'.
Proof.
  intros Hb Hbx Hd Hs Hok H.
  inversion Hb as [cs0 a|cs0 l Hi|cs0 d Hi Hn|cs0 c d j ext ty Hk Ht|cs0 c fs uu fds Hk Hn Hu Hf|cs0 q s uu Hu Hi|cs0 q s uu Hu Hi Hn|cs0 content t pre Hc Ho|cs0 ty path cx0 t pre Hfp Hcx]; subst cs0 o; try subst uu.
  - cbn in H. injection H as <- <- <-. split; [apply keepc_refl|]. split; [assumption|]. split; [split; [split; reflexivity|split; [auto|split; reflexivity]]|].
    apply again_body. intros K j cx2 wa o2 p2 wc Hs2 Hok2 Hf2 H2. injection H2 as <- <- <-. split; [reflexivity|]. split; [reflexivity|]. apply after_none; [apply fresh_none|assumption].
  - inversion Hbx; subst. assert (co = false) as -> by (destruct co; [specialize (Hd eq_refl); unfold direct in Hd; cbn in Hd; congruence|reflexivity]). eapply list_first; eassumption.
  - inversion Hbx; subst. assert (co = false) as -> by (destruct co; [specialize (Hd eq_refl); unfold direct in Hd; cbn in Hd; congruence|reflexivity]). eapply dict_first; try eassumption. intros k x Hx. apply (Hi k x Hx).
  - exfalso. cbn [ser_body ser_method] in H. apply mbind_ok in H as (u & w1 & H1 & _). apply invalid_ok in H1 as [_ Hv]. congruence.
  - inversion Hbx as [| | | |c0 fs0 u0 fds0 Hk0 Hf0| | | |]; subst. assert (fds0 = fds) as -> by congruence. eapply model_first; try eassumption.
    intros f v H1 H2 H3. split; [apply (Hf f v H1 H2 H3)|eapply Hf0; eassumption].
  - inversion Hbx; subst. eapply seq_first; eassumption.
  - inversion Hbx; subst. eapply map_first; eassumption.
  - inversion Hbx; subst. assert (co = false) as -> by (destruct co; [specialize (Hd eq_refl); unfold direct in Hd; cbn in Hd; congruence|reflexivity]).
    eapply (run_method E Hval) in H as (p1 & H & ->); [|discriminate|discriminate|discriminate|cbn [ser_method]; reflexivity].
    assert (Hld : loaded content). { intros ty tt b c ->. destruct (t_subdir t) as [sd|] eqn:Et; [specialize (Hc sd (or_introl eq_refl))|specialize (Hc [] (or_intror (conj eq_refl eq_refl)))]; inversion Hc. }
    eapply rec_first; eassumption.
  - assert (co = false) as -> by (destruct co; [specialize (Hd eq_refl); unfold direct in Hd; cbn in Hd; congruence|reflexivity]).
    eapply (run_method E Hval) in H as (p1 & H & ->); [|discriminate|discriminate|discriminate|cbn [ser_method]; reflexivity].
    eapply waiting_first; eassumption.
Qed.
End Step.
Theorem ser_first n : forall o co comps cx w o' p w', hold comps o -> boxed E o -> (co = true -> direct o) -> sctx i comps cx -> ok w ->
  f_ser (depth E n) (Some cx) co o w = (Ok (o', p), w') -> First comps co o o' p w w'.
Proof.
  induction n as [|n IH]; intros o co comps cx w o' p w' Hb Hbx Hd Hs Hok H; [discriminate|].
  apply (step_first n IH o co comps cx w o' p w' Hb Hbx Hd Hs Hok H).
Qed.
End Again.
