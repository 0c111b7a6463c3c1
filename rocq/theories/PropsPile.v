(** Storables in plain lists and dicts get a new file at every save: C75. *)
From Coq Require Import List Ascii String Bool Arith ZArith Lia.
From Verif Require Import Base PosixModel FsModel PathModel SerialModel StoreModel TrackModel ContainerModel FieldModel PropsContainer PropsField StoreFrame StoreMount StoreSpec StoreLocal StorePlace
     StoreRecord StoreSave StoreEvents StoreExample SerialSpec SerialProof RoundSpec KeepSpec RoundProof ReplayProof CleanProof DropProof DropSettled KeepProof ContextProof KeepSave PathSpec MountSpec DirSpec
     PosixProof FsProof DirProof TargetProof MountProof HistoryProof PathFacts PropsStore PropsRepo PropsRound PropsKeep PropsDelete PropsCrash.
Import ListNotations.

Local Arguments str_eq_dec : simpl never.
Local Arguments atom_eq_dec : simpl never.

(** ** Specification *)
(** Plain Python values: lists and dicts of storables and atoms, nested in any way. *)
Inductive loose (E : senv) : obj -> Prop :=
| lo_atom a : loose E (OAtom a)
| lo_storable c d j x : k_kind (s_class E c) = SLeaf j x -> is_storable E (OLeaf c d) = true -> loose E (OLeaf c d)
| lo_list l : (forall x, In x l -> loose E x) -> loose E (OList l)
| lo_dict d : (forall k x, In (k, x) d -> loose E x) -> loose E (ODict d).
(** How many storables there are. *)
Fixpoint storables (o : obj) : nat :=
  match o with
  | OLeaf _ _ => 1
  | OList l => list_sum (map storables l)
  | ODict d => list_sum (map (fun kv => storables (snd kv)) d)
  | _ => 0
  end.
(** File names made from different uuids differ, and differ from the key's own files. *)
Definition unlike_names (E : senv) (k : str) : Prop :=
  (forall i j a b x y, usual_suffix E a x -> usual_suffix E b y -> s_uuid E i ++ x = s_uuid E j ++ y -> i = j) /\
  (forall i a x, usual_suffix E a x -> s_uuid E i ++ x <> k ++ $".json" /\ s_uuid E i ++ x <> $".gitignore").
(** [m] saves of an object one after the other. *)
Inductive saves (E : senv) (n : nat) (p : opts) (k : str) : nat -> obj -> world -> world -> Prop :=
| saves_none o w : saves E n p k 0 o w w
| saves_more m o w o1 j w1 w2 : save E n p k o w = (Ok (o1, j), w1) -> saves E n p k m o1 w1 w2 -> saves E n p k (S m) o w w2.

(** ** Proofs *)
Section Loose.
Variable E : senv.
Variable i : nat.
Variable D0 k : str.
Hypothesis Hcwd : absolute (s_cwd E).
Hypothesis Hdir : absolute D0.
Hypothesis Hun : In (s_retouch E) unattended.
Hypothesis Hval : s_validate E = true.
Hypothesis Huid : ordinary_uuids E.
Hypothesis Hfai : faithful_methods E.
Hypothesis Hname : unlike_names E k.
Let D := location (s_cwd E) D0.
Notation ok := (mnt_ok i D0).
Definition fresh (lo hi : nat) (nm : str) : Prop := exists j a x, lo <= j < hi /\ usual_suffix E a x /\ nm = s_uuid E j ++ x.
(** What was prepared so far. *)
Definition inv (w : world) : Prop :=
  forall m v s, nth_error (w_mounts w) i = Some m -> In v (m_touched m) -> rel_target v s -> s = [k ++ $".json"] \/ exists nm, s = [nm] /\ fresh 0 (w_uuid w) nm.
Definition step (names : list str) (w w' : world) : Prop :=
  w_uuid w <= w_uuid w' /\ NoDup names /\ Forall (fresh (w_uuid w) (w_uuid w')) names /\
  (forall nm, In nm names -> file_at (w_fs w') (D ++ [nm]) <> None) /\
  (forall q, (forall nm, In nm names -> q <> D ++ [nm]) -> file_at (w_fs w') q = file_at (w_fs w) q) /\ ok w' /\ inv w'.
Lemma step_refl w : ok w -> inv w -> step [] w w.
Proof. intros H1 H2. split; [lia|]. split; [constructor|]. split; [constructor|]. split; [intros ? []|]. auto. Qed.
Lemma fresh_apart a b c nm : fresh a b nm -> fresh b c nm -> False.
Proof.
  intros (j & o1 & x & H1 & H2 & ->) (j' & o2 & y & H3 & H4 & H5). pose proof (proj1 Hname _ _ _ _ _ _ H2 H4 H5). lia.
Qed.
Lemma fresh_wider a b a' b' nm : a' <= a -> b <= b' -> fresh a b nm -> fresh a' b' nm.
Proof. intros H1 H2 (j & o1 & x & H & H3). exists j, o1, x. split; [lia|assumption]. Qed.
Lemma step_trans x y w w1 w2 : step x w w1 -> step y w1 w2 -> step (x ++ y) w w2.
Proof.
  intros (A1 & A2 & A3 & A4 & A5 & _) (B1 & B2 & B3 & B4 & B5 & B6). rewrite Forall_forall in A3, B3.
  split; [lia|]. split; [|split; [|split; [|split; [|exact B6]]]].
  - clear - A2 B2 A3 B3 Hname. induction A2 as [|a x Ha Hx IH]; [exact B2|]. cbn. constructor; [|apply IH; intros z Hz; apply A3; right; assumption].
    intros Hi. apply in_app_or in Hi as [Hi|Hi]; [contradiction|]. eapply fresh_apart; [apply A3; left; reflexivity|apply B3; exact Hi].
  - apply Forall_forall. intros nm Hi. apply in_app_or in Hi as [Hi|Hi]; [eapply fresh_wider; [| |apply A3; exact Hi]; lia|eapply fresh_wider; [| |apply B3; exact Hi]; lia].
  - intros nm Hi. apply in_app_or in Hi as [Hi|Hi]; [|auto]. rewrite B5; [auto|]. intros nm' Hi' Hx. apply app_inv_head in Hx. injection Hx as <-.
    eapply fresh_apart; [apply A3; exact Hi|apply B3; exact Hi'].
  - intros q Hq. rewrite B5, A5; [reflexivity| |]; intros nm Hi; apply Hq; apply in_or_app; auto.
Qed.

Lemma leaf_target c d jj x w t w1 : k_kind (s_class E c) = SLeaf jj x -> rec_target E (OLeaf c d) (auto_target []) w = (Ok t, w1) ->
  exists su, usual_suffix E (OLeaf c d) su /\ places t [s_uuid E (w_uuid w) ++ su] /\ w1 = mkWorld (w_fs w) (w_mounts w) (w_inputs w) (S (S (w_uuid w))) (w_log w).
Proof.
  intros Hk H. unfold rec_target in H. cbn [is_complete auto_target t_subdir t_stem] in H. unfold m_uuid, mbind, ret in H. cbn [w_uuid w_fs w_mounts w_inputs w_log] in H. injection H as <- <-.
  exists (match x with Some x => x | None => if jj then $".json" else s_suffix E end).
  assert (Hsu : usual_suffix E (OLeaf c d) (match x with Some x => x | None => if jj then $".json" else s_suffix E end)).
  { destruct x as [x|]; [eapply us_ext; exact Hk|]. destruct jj; [eapply us_dataclass|eapply us_other]; exact Hk. }
  split; [exact Hsu|]. split; [|reflexivity]. eexists [], (s_uuid E (w_uuid w) ++ match x with Some x => x | None => if jj then $".json" else s_suffix E end). split; [reflexivity|]. cbn [merge merge2 t_stem t_suffix merge_part ext_of json_like t_name auto_target]. rewrite Hk.
  split; [destruct x; reflexivity|]. pose proof (Huid (w_uuid w) _ _ Hsu) as Hp. destruct x; (split; [exact Hp|]; split; [intros [? Hx]; discriminate|]; split; [intros [Hx|[]]; discriminate|reflexivity]).
Qed.
Lemma leaf_step n c d jj x w o' p w' : k_kind (s_class E c) = SLeaf jj x -> ok w -> inv w ->
  serialize E n (Some (mkCtx i [])) (fresh_record (OLeaf c d)) w = (Ok (o', p), w') -> (exists t pre we re, o' = ORec (OLeaf c d) t pre we re) /\ exists nm, step [nm] w w'.
Proof.
  intros Hk Hok Hi H. unfold fresh_record in H. apply serialize_rec in H as (m & -> & [(q & -> & H)|(e & _ & Hv & _)]); [|congruence].
  apply ser_rec_loaded in H as (dir & w0 & t' & w1 & out & we' & c' & _ & _ & Ht & Hwr & -> & _); [|intros ? ? ? ?; discriminate].
  destruct (leaf_target _ _ _ _ _ _ _ Hk Ht) as (su & Hsu & Hp & ->). set (nm := s_uuid E (w_uuid w) ++ su) in *. set (w1 := mkWorld _ _ _ _ _) in *.
  assert (Hok1 : ok w1) by exact Hok.
  destruct (ctx_write_inv E i D0 Hcwd Hdir Hun (depth E m) (mkCtx i []) [] t' [nm] (OLeaf c d) w1 out we' c' w' Hok1 (sctx_top i) Hp Hwr) as (pp & u & n' & w2 & local & Hpn & Hg & Hok2 & _ & _ & _ & Hw).
  cbn [removelast app] in Hg, Hw. destruct Hw as [(-> & Hw)|(_ & _ & Hv & _)]; [|congruence].
  destruct Hg as (mt & touched & fs' & G1 & G2 & G3 & G4 & G5 & G6 & G7 & G8 & G9 & G10 & G11).
  assert (Hn : [n'] = [nm]).
  { apply G11. intros v s Hv Hs ->. destruct (Hi mt v [nm] G1 Hv Hs) as [Hx|(nm' & Hx & Hf)].
    - injection Hx as Hxa. exact (proj1 (proj2 Hname _ _ _ Hsu) Hxa).
    - injection Hx as <-. destruct Hf as (j & a & y & Hj & Ha & Hxa). pose proof (proj1 Hname _ _ _ _ _ _ Hsu Ha Hxa). lia. }
  injection Hn as ->. unfold write_storable in Hw. destruct (s_write E c (List.length (w_log w2)) d) as [left e] eqn:Es.
  assert (e = None) as ->. { destruct e; [|reflexivity]. apply mbind_ok in Hw as (? & ? & _ & Hw). discriminate. }
  destruct (Hfai _ _ _ _ Es) as (y & -> & _). apply mbind_ok in Hw as ([] & w3 & Hw3 & Hw). unfold ret in Hw. injection Hw as <- <-.
  apply m_write_inv in Hw3. inversion Hw3 as [| |fs3 Hf3 Hx3 Hy3]; subst w3. split; [do 4 eexists; reflexivity|]. exists nm.
  assert (Hu2 : w_uuid w2 = S (S (w_uuid w))) by (rewrite G6; reflexivity).
  assert (Hfr : fresh (w_uuid w) (w_uuid w2) nm) by (exists (w_uuid w), (OLeaf c d), su; split; [lia|split; [exact Hsu|reflexivity]]).
  split; [cbn [set_fs logged w_uuid]; lia|]. split; [constructor; [intros []|constructor]|]. split; [constructor; [exact Hfr|constructor]|].
  split; [|split; [|split]].
  - intros z [<-|[]]. cbn [set_fs w_fs]. rewrite (write_file_lookup _ _ _ _ Hf3). fold D. destruct (loc_eq_dec (D ++ [nm]) (D ++ [nm])); [discriminate|congruence].
  - intros z Hz. cbn [set_fs w_fs]. rewrite (write_file_lookup _ _ _ _ Hf3). fold D. destruct (loc_eq_dec z (D ++ [nm])); [exfalso; eapply Hz; [left; reflexivity|assumption]|].
    cbn [logged w_fs]. rewrite G6. cbn [w_fs]. rewrite G7. reflexivity.
  - destruct Hok2 as [K1 K2]. split; [exact K1|]. cbn [set_fs w_fs]. eapply write_file_wf; [exact Hf3|exact K2].
  - intros m0 v s Hm0 Hv Hs. cbn [set_fs logged w_mounts w_uuid] in Hm0 |- *. rewrite G6 in Hm0. cbn [w_mounts] in Hm0. rewrite nth_set_nth in Hm0. destruct (Nat.eq_dec i i); [|congruence].
    change (w_mounts w1) with (w_mounts w) in Hm0, G1. destruct (nth_error (w_mounts w) i) as [m1|] eqn:Em1; [|discriminate]. injection G1 as ->. injection Hm0 as <-. cbn [set_touched m_touched] in Hv.
    assert (Hold : In v (m_touched mt) -> s = [k ++ $".json"] \/ exists nm0, s = [nm0] /\ fresh 0 (w_uuid w2) nm0).
    { intros Hv0. destruct (Hi mt v s Em1 Hv0 Hs) as [Hx|(z & Hx & Hf)]; [left; exact Hx|right; exists z; split; [exact Hx|eapply fresh_wider; [| |exact Hf]; lia]]. }
    destruct G10 as [(-> & _)|(-> & _)]; [|exact (Hold Hv)]. apply in_app_or in Hv as [Hv|[<-|[]]]; [exact (Hold Hv)|].
    right. exists nm. split; [eapply rel_target_unique; eassumption|]. eapply fresh_wider; [| |exact Hfr]; lia.
Qed.
Definition stepped (o o' : obj) (w w' : world) : Prop := o' = o /\ exists names, List.length names = storables o /\ step names w w'.
Lemma plain_step n o w o' p w' : (forall o w o' p w', loose E o -> (forall c d, o <> OLeaf c d) -> ok w -> inv w ->
    serialize E n (Some (mkCtx i [])) o w = (Ok (o', p), w') -> stepped o o' w w') ->
  loose E o -> ok w -> inv w -> ser_plain_item E (depth E n) (Some (mkCtx i [])) o w = (Ok (o', p), w') -> stepped o o' w w'.
Proof.
  intros IH Hl Hok Hi H. unfold ser_plain_item in H. destruct Hl as [a|c d j x Hk Hs|l Hl|d Hl].
  - eapply IH; [constructor|discriminate|exact Hok|exact Hi|exact H].
  - rewrite Hs in H. apply mbind_ok in H as ([o1 p1] & w1 & H1 & H). unfold ret in H. cbn [fst snd] in H. injection H as <- <- <-.
    destruct (leaf_step n c d j x w o1 p1 w1 Hk Hok Hi H1) as ((t & pre & we & re & ->) & nm & Hst). split; [reflexivity|]. exists [nm]. split; [reflexivity|exact Hst].
  - eapply IH; [constructor; exact Hl|discriminate|exact Hok|exact Hi|exact H].
  - eapply IH; [constructor; exact Hl|discriminate|exact Hok|exact Hi|exact H].
Qed.
Lemma plains_step n l : (forall o w o' p w', loose E o -> (forall c d, o <> OLeaf c d) -> ok w -> inv w ->
    serialize E n (Some (mkCtx i [])) o w = (Ok (o', p), w') -> stepped o o' w w') ->
  forall w ys w', (forall x, In x l -> loose E x) -> ok w -> inv w -> mapM (ser_plain_item E (depth E n) (Some (mkCtx i []))) l w = (Ok ys, w') ->
  map fst ys = l /\ exists names, List.length names = list_sum (map storables l) /\ step names w w'.
Proof.
  intros IH. induction l as [|o l IHl]; intros w ys w' Hl Hok Hi H; cbn [mapM] in H.
  - unfold ret in H. injection H as <- <-. split; [reflexivity|]. exists []. split; [reflexivity|apply step_refl; assumption].
  - apply mbind_ok in H as ([o1 p1] & w1 & H1 & H). apply mbind_ok in H as (ys2 & w2 & H2 & H). unfold ret in H. injection H as <- <-.
    destruct (plain_step n o w o1 p1 w1 IH (Hl o (or_introl eq_refl)) Hok Hi H1) as (-> & n1 & L1 & S1).
    destruct (IHl w1 ys2 w2) as (M2 & n2 & L2 & S2); [intros x Hx; apply Hl; right; exact Hx|apply S1|apply S1|exact H2|].
    split; [cbn; rewrite M2; reflexivity|]. exists (n1 ++ n2). split; [rewrite app_length, L1, L2; reflexivity|eapply step_trans; eassumption].
Qed.
Lemma loose_step n : forall o w o' p w', loose E o -> (forall c d, o <> OLeaf c d) -> ok w -> inv w ->
  serialize E n (Some (mkCtx i [])) o w = (Ok (o', p), w') -> stepped o o' w w'.
Proof.
  induction n as [|n IH]; intros o w o' p w' Hl Hno Hok Hi H; [discriminate|].
  change (ser_body E (depth E n) (Some (mkCtx i [])) false o w = (Ok (o', p), w')) in H. destruct Hl as [a|c d j x Hk Hs|l Hl|d Hl]; cbn [ser_body] in H.
  - unfold ret in H. injection H as <- _ <-. split; [reflexivity|]. exists []. split; [reflexivity|apply step_refl; assumption].
  - destruct (Hno c d eq_refl).
  - unfold ser_list in H. apply mbind_ok in H as (ys & w1 & H1 & H). unfold ret in H. injection H as <- _ <-.
    destruct (plains_step n l IH w ys w1 Hl Hok Hi H1) as (M1 & names & L1 & S1). split; [rewrite M1; reflexivity|]. exists names. split; [exact L1|exact S1].
  - unfold ser_dict in H. apply mbind_ok in H as (xs & w1 & H1 & H). unfold ret in H. injection H as <- _ <-.
    apply mapM_keyed_ok in H1 as (ys & H1 & -> & Hlen).
    destruct (plains_step n (map snd d) IH w ys w1) as (M1 & names & L1 & S1); [intros x Hx; apply in_map_iff in Hx as ([k0 v] & <- & Hx); eapply Hl; exact Hx|exact Hok|exact Hi|exact H1|].
    split.
    + f_equal. clear - M1 Hlen. revert ys M1 Hlen. induction d as [|[k0 v] d IHd]; intros [|[o p] ys] M1 Hlen; cbn in *; try discriminate; [reflexivity|]. injection M1 as <- M1. f_equal. apply IHd; [exact M1|congruence].
    + exists names. split; [rewrite L1, map_map; reflexivity|exact S1].
Qed.
End Loose.
Lemma save_step E n p k o w o' j w' :
  absolute (s_cwd E) -> absolute (o_base p) -> In (s_retouch E) unattended -> s_validate E = true -> ordinary_uuids E -> faithful_methods E ->
  unlike_names E k -> plain k -> k <> $".gitignore" -> loose E o -> (forall c d, o <> OLeaf c d) -> well_formed (w_fs w) ->
  save E n p k o w = (Ok (o', j), w') ->
  let dir := location (s_cwd E) (key_dir p k) in
  o' = o /\ w_uuid w <= w_uuid w' /\ exists names, List.length names = storables o /\ NoDup names /\ Forall (fresh E (w_uuid w) (w_uuid w')) names /\
    (forall nm, In nm names -> file_at (w_fs w') (dir ++ [nm]) <> None) /\
    (forall q, dir ++ q <> dir ++ [k ++ $".json"] -> ~ own_ignore E p k (dir ++ q) -> (forall nm, In nm names -> q <> [nm]) -> file_at (w_fs w') (dir ++ q) = file_at (w_fs w) (dir ++ q)).
Proof.
  intros Hc Hb Hun Hval Huid Hfai Hname Hk Hgi Hl Hno Hw H dir.
  pose proof (save_inv_uuid E Hc Hun p k Hb n o w o' j w' [k]) as HS. cbn zeta in HS. cbn [removelast last app] in HS.
  destruct HS as (o1 & q0 & u & wa & wb & fs1 & fs2 & mt & Ho1 & Hg & Hoka & Hser & Hokb & Hf1 & Hf2 & Hmt & Hmt' & Hmd & Hclose & Hlog & Huu);
    [discriminate|constructor; [assumption|constructor]|reflexivity|assumption|assumption|].
  assert (o1 = o) as ->.
  { destruct Ho1 as [[-> _]|(-> & Hns & _)]; [reflexivity|]. destruct Hl; try discriminate. destruct (Hno c d eq_refl). }
  set (i := List.length (w_mounts w)) in *. set (D0 := key_dir p k) in *.
  assert (Hdir : absolute D0) by (apply key_dir_absolute; assumption). fold dir in Hf1, Hf2. set (l := dir ++ [k ++ $".json"]) in *.
  assert (Hst : m_gitignore mt = o_gitignore p /\ m_cluster mt = o_cluster p).
  { pose proof (on_ser E i D0 Hc Hdir Hun (fun _ => True) (fun _ _ => I) n (mkCtx i []) [] o (sctx_top i) wa Hoka) as Hons.
    rewrite Hser in Hons. destruct Hons as (_ & Hons & _). cbn [snd] in Hons.
    pose proof (statics_nth _ _ _ Hmt) as Hn. rewrite Hons in Hn. destruct Hg as (mm & touched & fs' & G1 & _ & _ & _ & _ & -> & _).
    unfold opened in G1. cbn [w_mounts] in G1. rewrite nth_error_app2, Nat.sub_diag in G1 by lia. injection G1 as <-.
    unfold statics in Hn. cbn [w_mounts] in Hn. rewrite nth_error_map, nth_set_nth in Hn. destruct (Nat.eq_dec i i); [|congruence].
    unfold opened in Hn. cbn [w_mounts] in Hn. rewrite nth_error_app2, Nat.sub_diag in Hn by (unfold i; lia). cbn in Hn. injection Hn as _ Hn1 Hn2. auto. }
  destruct Hst as [Hst1 Hst2].
  assert (Hua : w_uuid wa = w_uuid w /\ inv E i k wa /\ forall q, file_at (w_fs wa) q = file_at (w_fs w) q).
  { destruct Hg as (mm & touched & fs' & G1 & _ & G3 & _ & _ & -> & G7 & _ & _ & G10 & _). cbn [w_uuid w_fs]. split; [reflexivity|]. split; [|exact G7].
    unfold opened in G1. cbn [w_mounts] in G1. rewrite nth_error_app2, Nat.sub_diag in G1 by lia. injection G1 as <-.
    intros m0 v s Hm0 Hv Hs. cbn [w_mounts] in Hm0. rewrite nth_set_nth in Hm0. destruct (Nat.eq_dec i i); [|congruence].
    unfold opened in Hm0. cbn [w_mounts] in Hm0. rewrite nth_error_app2, Nat.sub_diag in Hm0 by (unfold i; lia). cbn [nth_error] in Hm0. injection Hm0 as <-. cbn [set_touched m_touched] in Hv.
    left. destruct G10 as [(-> & _)|(-> & _)]; cbn in Hv; [|destruct Hv]. destruct Hv as [<-|[]]. eapply rel_target_unique; eassumption. }
  destruct Hua as (Hua & Hinv & Hfa).
  destruct (loose_step E i D0 k Hc Hdir Hun Hval Huid Hfai Hname n o wa o' j wb Hl Hno Hoka Hinv Hser) as (-> & names & L1 & (S1 & S2 & S3 & S4 & S5 & S6 & S7)). fold dir in S4, S5.
  assert (Hwf2 : well_formed fs2) by (destruct Hokb as [_ Hwb]; exact (write_file_wf _ _ _ _ Hf2 (write_file_wf _ _ _ _ Hf1 Hwb))).
  assert (Hrest : forall q, dir ++ q <> l -> ~ own_ignore E p k (dir ++ q) -> file_at (w_fs w') (dir ++ q) = file_at (w_fs wb) (dir ++ q)).
  { intros q Hq Hcl. rewrite (close_away _ _ _ _ Hc Hwf2 Hclose) by (intros Hgt Hx; rewrite Hmd, Hst2 in Hx; apply own_ignore_loc in Hx; try assumption; [contradiction|congruence]).
    rewrite (write_file_lookup _ _ _ _ Hf2). destruct (loc_eq_dec (dir ++ q) l); [contradiction|].
    rewrite (write_file_lookup _ _ _ _ Hf1). destruct (loc_eq_dec (dir ++ q) l); [contradiction|reflexivity]. }
  rewrite Hua in *. split; [reflexivity|]. split; [lia|]. exists names. split; [exact L1|]. split; [exact S2|]. split; [rewrite Huu; exact S3|].
  assert (Hnm : forall a b nm, fresh E a b nm -> dir ++ [nm] <> l /\ ~ own_ignore E p k (dir ++ [nm])).
  { intros a b nm (jj & z & x & _ & Hz & ->). destruct (proj2 Hname jj z x Hz) as [N1 N2]. split.
    - intros Hx. apply app_inv_head in Hx. injection Hx as Hx. exact (N1 Hx).
    - intros (_ & _ & Hx). apply app_inv_head in Hx. injection Hx as Hx. exact (N2 Hx). }
  split.
  - intros nm Hi. rewrite Forall_forall in S3. destruct (Hnm _ _ _ (S3 nm Hi)) as [N1 N2]. rewrite Hrest; auto.
  - intros q Hq Hcl Hqn. rewrite Hrest, S5, Hfa; [reflexivity| |exact Hq|exact Hcl]. intros nm Hi Hx. apply app_inv_head in Hx. eapply Hqn; eassumption.
Qed.

(** ** Theorems *)
(** A save of plain lists and dicts puts every storable into a file of its own whose name was never used before, and
    leaves all other files alone; the object is unchanged, so that the next save does the same. *)
Theorem C75_new_files : forall E n p k o w o' j w',
  absolute (s_cwd E) -> absolute (o_base p) -> In (s_retouch E) unattended -> s_validate E = true -> ordinary_uuids E -> faithful_methods E ->
  unlike_names E k -> plain k -> k <> $".gitignore" -> loose E o -> (forall c d, o <> OLeaf c d) -> well_formed (w_fs w) ->
  save E n p k o w = (Ok (o', j), w') ->
  let dir := location (s_cwd E) (key_dir p k) in
  o' = o /\ exists names, List.length names = storables o /\ NoDup names /\ (forall nm, In nm names -> file_at (w_fs w') (dir ++ [nm]) <> None) /\
    (forall nm, In nm names -> exists i content x, w_uuid w <= i < w_uuid w' /\ usual_suffix E content x /\ nm = s_uuid E i ++ x) /\
    (forall q, q <> [k ++ $".json"] -> ~ own_ignore E p k (dir ++ q) -> (forall nm, In nm names -> q <> [nm]) -> file_at (w_fs w') (dir ++ q) = file_at (w_fs w) (dir ++ q)).
Proof.
  intros E n p k o w o' j w' Hc Hb Hun Hval Huid Hfai Hname Hk Hgi Hl Hno Hw H dir.
  destruct (save_step E n p k o w o' j w' Hc Hb Hun Hval Huid Hfai Hname Hk Hgi Hl Hno Hw H) as (H1 & _ & names & L1 & H3 & H4 & H5 & H6).
  split; [exact H1|]. exists names. repeat (split; [assumption|]). split.
  - intros nm Hi. rewrite Forall_forall in H4. exact (H4 nm Hi).
  - intros q Hq. apply H6. intros Hx. apply app_inv_head in Hx. contradiction.
Qed.
(** So files pile up: after [m] saves there are [m] files for every storable. *)
Theorem C75_files_pile_up : forall E n p k m o w w',
  absolute (s_cwd E) -> absolute (o_base p) -> In (s_retouch E) unattended -> s_validate E = true -> ordinary_uuids E -> faithful_methods E ->
  unlike_names E k -> plain k -> k <> $".gitignore" -> loose E o -> (forall c d, o <> OLeaf c d) -> well_formed (w_fs w) ->
  saves E n p k m o w w' ->
  let dir := location (s_cwd E) (key_dir p k) in
  exists names, List.length names = m * storables o /\ NoDup names /\ forall nm, In nm names -> file_at (w_fs w') (dir ++ [nm]) <> None.
Proof.
  intros E n p k m o w w' Hc Hb Hun Hval Huid Hfai Hname Hk Hgi Hl Hno Hw Hs dir.
  enough (G : w_uuid w <= w_uuid w' /\ (forall nm, fresh E 0 (w_uuid w) nm -> file_at (w_fs w') (dir ++ [nm]) = file_at (w_fs w) (dir ++ [nm])) /\
    exists names, List.length names = m * storables o /\ NoDup names /\ Forall (fresh E (w_uuid w) (w_uuid w')) names /\ forall nm, In nm names -> file_at (w_fs w') (dir ++ [nm]) <> None).
  { destruct G as (_ & _ & names & G1 & G2 & _ & G4). exists names. auto. }
  induction Hs as [o w|m o w o1 j w1 w2 H Hs IH].
  - split; [lia|]. split; [reflexivity|]. exists []. split; [reflexivity|]. split; [constructor|]. split; [constructor|intros ? []].
  - destruct (save_step E n p k o w o1 j w1 Hc Hb Hun Hval Huid Hfai Hname Hk Hgi Hl Hno Hw H) as (-> & H2 & na & L1 & H3 & H4 & H5 & H6). fold dir in H5, H6.
    destruct (IH Hl Hno (save_wf _ _ _ _ _ _ _ _ Hc Hw H)) as (I1 & I2 & nb & L2 & I3 & I4 & I5).
    pose proof H4 as F4. pose proof I4 as F5. rewrite Forall_forall in F4, F5. split; [lia|]. split.
    + intros nm Hf. rewrite I2 by (eapply fresh_wider; [| |exact Hf]; lia). pose proof Hf as (jj & z & x & Hjj & Hz & Hnm). destruct (proj2 Hname jj z x Hz) as [N1 N2]. apply H6.
      * intros Hx. apply app_inv_head in Hx. injection Hx as Hx. rewrite Hnm in Hx. exact (N1 Hx).
      * intros (_ & _ & Hx). apply app_inv_head in Hx. injection Hx as Hx. rewrite Hnm in Hx. exact (N2 Hx).
      * intros nm' Hi Hx. injection Hx as <-. eapply (fresh_apart E k Hname); [exact Hf|apply F4; exact Hi].
    + exists (na ++ nb). split; [rewrite app_length, L1, L2; reflexivity|]. split; [|split].
      * clear - H3 I3 F4 F5 Hname. induction H3 as [|a x Ha Hx IHx]; [exact I3|]. cbn. constructor; [|apply IHx; intros z Hz; apply F4; right; assumption].
        intros Hi. apply in_app_or in Hi as [Hi|Hi]; [contradiction|]. eapply (fresh_apart E k Hname); [apply F4; left; reflexivity|apply F5; exact Hi].
      * apply Forall_forall. intros nm Hi. apply in_app_or in Hi as [Hi|Hi]; [eapply fresh_wider; [| |apply F4; exact Hi]; lia|eapply fresh_wider; [| |apply F5; exact Hi]; lia].
      * intros nm Hi. apply in_app_or in Hi as [Hi|Hi]; [|auto]. rewrite I2; [auto|]. eapply fresh_wider; [| |apply F4; exact Hi]; lia.
Qed.

(** ** Examples *)
Lemma digits_dot a : forall b x y, digits a -> digits b -> a ++ "."%char :: x = b ++ "."%char :: y -> a = b.
Proof.
  induction a as [|c a IH]; intros [|c' b] x y Ha Hb H; cbn in H; [reflexivity| | |].
  - injection H as <- _. inversion Hb as [|? ? Hd _]. discriminate Hd.
  - injection H as -> _. inversion Ha as [|? ? Hd _]. discriminate Hd.
  - injection H as <- H. f_equal. inversion Ha. inversion Hb. eapply IH; eassumption.
Qed.
Example pi_names : unlike_names rt_env ($"new").
Proof.
  assert (Hsu : forall content su, usual_suffix rt_env content su -> su = $".bin" \/ su = $".json").
  { intros content su H. inversion H as [c d j x Hk|c d Hk|c d Hk| | |]; subst; auto; destruct c as [|[|c]]; cbn in Hk; try discriminate Hk. left. vm_compute. congruence. }
  split.
  - intros i j a b x y Hx Hy H. unfold rt_env, ex_env in H. cbn [s_uuid] in H. rewrite <- !app_assoc in H. apply app_inv_head in H.
    assert (H1 : exists x' y', x = "."%char :: x' /\ y = "."%char :: y') by (apply Hsu in Hx, Hy; destruct Hx as [-> | ->], Hy as [-> | ->]; eexists; eexists; split; reflexivity).
    destruct H1 as (x' & y' & -> & ->). apply digits_dot in H; try apply str_of_N_digits. apply str_of_N_inj in H. lia.
  - intros i a x Hx. split; intros H; apply (f_equal (hd "."%char)) in H; discriminate H.
Qed.
(** A list with a storable and a dict holding another one, saved three times: six files. *)
Definition pi_list : obj := OList [OAtom (AInt 3); blob "a"; ODict [(AStr ($"b"), blob "b")]].
Definition pi_dir : loc := location (s_cwd rt_env) (key_dir ex_opts ($"new")).
Definition pi_count (w : world) : nat :=
  List.length (filter (fun k => match file_at (w_fs w) (pi_dir ++ [s_uuid rt_env k ++ $".bin"]) with Some _ => true | None => false end) (seq 0 50)).
Example C75_example :
  absolute (s_cwd rt_env) /\ absolute (o_base ex_opts) /\ In (s_retouch rt_env) unattended /\ s_validate rt_env = true /\ ordinary_uuids rt_env /\ faithful_methods rt_env /\
  unlike_names rt_env ($"new") /\ plain ($"new") /\ $"new" <> $".gitignore" /\ loose rt_env pi_list /\ storables pi_list = 2 /\ (forall c d, pi_list <> OLeaf c d) /\
  well_formed (w_fs ex_world) /\ exists w', saves rt_env 10 ex_opts ($"new") 3 pi_list ex_world w' /\ pi_count ex_world = 0 /\ pi_count w' = 6.
Proof.
  destruct rt_registered as [_ H2]. split; [eexists; reflexivity|]. split; [eexists; reflexivity|]. split; [cbn; tauto|]. split; [reflexivity|].
  split; [exact rt_uuids|]. split; [exact H2|]. split; [exact pi_names|].
  split; [repeat split; try discriminate; cbn; intros Hx; repeat destruct Hx as [Hx|Hx]; try discriminate; contradiction|]. split; [discriminate|]. split; [|split; [reflexivity|split; [discriminate|split]]].
  - constructor. intros x [<-|[<-|[<-|[]]]]; [constructor|econstructor; reflexivity|]. constructor. intros k x [H|[]]. injection H as _ <-. econstructor; reflexivity.
  - cbn. repeat constructor; cbn; tauto.
  - let v := eval vm_compute in (save rt_env 10 ex_opts ($"new") pi_list ex_world) in
    match v with (Ok (?o1, ?j1), ?w1) =>
      let v2 := eval vm_compute in (save rt_env 10 ex_opts ($"new") o1 w1) in
      match v2 with (Ok (?o2, ?j2), ?w2) =>
        let v3 := eval vm_compute in (save rt_env 10 ex_opts ($"new") o2 w2) in
        match v3 with (Ok (?o3, ?j3), ?w3) =>
          exists w3; split; [refine (saves_more _ _ _ _ _ _ _ o1 j1 w1 _ _ _); [vm_compute; reflexivity|];
            refine (saves_more _ _ _ _ _ _ _ o2 j2 w2 _ _ _); [vm_compute; reflexivity|];
            refine (saves_more _ _ _ _ _ _ _ o3 j3 w3 _ _ _); [vm_compute; reflexivity|apply saves_none]|split; vm_compute; reflexivity]
        end
      end
    end.
Qed.

Print Assumptions C75_new_files.
Print Assumptions C75_files_pile_up.
