(** A repository is a dictionary: C82. *)
From Coq Require Import List Ascii String Bool Arith ZArith Lia.
From Verif Require Import Base PosixModel FsModel PathModel SerialModel StoreModel StoreFrame StoreMount StoreSpec StoreLocal StorePlace
     StoreRecord StoreSave StoreExample SerialSpec SerialProof RoundSpec KeepSpec RoundProof ReplayProof KeepProof KeepSave PathSpec MountSpec DirSpec PosixProof FsProof DirProof TargetProof MountProof
     HistoryProof PathFacts PropsStore PropsRepo PropsRound PropsKeep PropsDelete PropsClean PropsCrash DictSpec DictProof.
Import ListNotations.

Local Arguments str_eq_dec : simpl never.
Local Arguments atom_eq_dec : simpl never.

Lemma key_a : ordinary_key ($"a").
Proof.
  split; [split; [discriminate|split; [discriminate|split; [discriminate|]]]|split; [discriminate|]].
  - intros [Hx|[]]; discriminate.
  - intros c [<-|[]]; reflexivity.
Qed.
Lemma key_b : ordinary_key ($"b").
Proof.
  split; [split; [discriminate|split; [discriminate|split; [discriminate|]]]|split; [discriminate|]].
  - intros [Hx|[]]; discriminate.
  - intros c [<-|[]]; reflexivity.
Qed.

Section Dict.
Variable E0 : senv.
Variable p : opts.
Hypothesis Hc0 : absolute (s_cwd E0).
Hypothesis Hb : absolute (o_base p).
Hypothesis Hcl : o_cluster p = true.
Let D (k : str) := location (s_cwd E0) (key_dir p k).
Let U (k : str) := location (s_cwd E0) (fst (path_split (key_dir p k))).
Lemma dir_is k : plain k -> D k = U k ++ [k].
Proof. intros H. apply key_parent; assumption. Qed.
Lemma ground_is k k1 : plain k -> plain k1 -> U k = U k1.
Proof.
  intros H H1. destruct (key_location E0 p k H Hcl) as (up & K1 & K2). pose proof (K2 k1 H1) as K3. fold (D k) in K1. fold (D k1) in K3.
  rewrite dir_is in K1, K3 by assumption. apply app_inj_tail in K1 as [-> _], K3 as [-> _]. reflexivity.
Qed.
Lemma ignore_is k : plain k -> keys_ignore E0 p k = U k ++ [$".gitignore"].
Proof. intros H. unfold keys_ignore. fold (D k). rewrite dir_is by assumption. rewrite removelast_last. reflexivity. Qed.

Definition shows (k : str) (t : tree) (m : nat) (E2 : senv) (w2 : world) : Prop :=
  exists o2 w3 w4, load E2 m p k None None w2 = (Ok o2, w3) /\ view E2 m m o2 w3 = (Ok t, w4).
Definition lasting (k : str) (t : tree) (fs : node) : Prop :=
  exists b, forall E2 m w2, same_code E0 E2 -> s_limit E2 = None -> b < m -> well_formed (w_fs w2) ->
    (forall q, inside q (D k) -> file_at (w_fs w2) q = file_at fs q) ->
    (o_gitignore p = true -> exists s, file_at (w_fs w2) (U k ++ [$".gitignore"]) = Some (Text s)) ->
    shows k t m E2 w2.
Definition inv (fs : node) (d : dict) : Prop :=
  well_formed fs /\ forall k x, d k = Some x -> ordinary_key k /\
    match x with
    | Holds t => (o_gitignore p = true -> listed (U k ++ [$".gitignore"]) k fs) /\ alive (D k) k fs /\ lasting k t fs
    | Absent => file_at fs (D k ++ [k ++ $".json"]) = None
    end.
Lemma inv_pass fs d fs' d' : inv fs d -> well_formed fs' -> (forall k t, d' k = Some t -> d k = Some t) ->
  (forall k t, d' k = Some t -> ordinary_key k ->
     (forall q, inside q (D k) -> file_at fs' q = file_at fs q) /\ (alive (D k) k fs -> listed (U k ++ [$".gitignore"]) k fs -> listed (U k ++ [$".gitignore"]) k fs')) ->
  inv fs' d'.
Proof.
  intros [Hw Hi] Hw' Hd H. split; [assumption|]. intros k x Hk. destruct (Hi k x (Hd k x Hk)) as (I1 & I2).
  destruct (H k x Hk I1) as [H1 H2]. split; [assumption|]. destruct x as [t|]; [|rewrite H1; [exact I2|eexists; reflexivity]].
  destruct I2 as (I2 & I3 & (b & I4)). split; [auto|]. split.
  - destruct I3 as [c I3]. exists c. rewrite H1; [exact I3|]. eexists. reflexivity.
  - exists b. intros E2 m w2 J1 J2 J3 J4 J5 J6. apply I4; try assumption. intros q Hq. rewrite J5 by assumption. apply H1. assumption.
Qed.
(** Calls for one key [k1] that keep what is known of the others. *)
Lemma inv_keeps E fs d fs' d' k1 : s_cwd E = s_cwd E0 -> plain k1 -> inv fs d ->
  (forall k t, d' k = Some t -> d k = Some t /\ k <> k1) ->
  (forall k, ordinary_key k -> k <> k1 -> keeps E p k1 k fs fs' /\ well_formed fs') ->
  inv fs' d'.
Proof.
  intros He Hk1 Hi Hd H.
  assert (Hw : well_formed fs').
  { destruct (str_eq_dec ($"a") k1) as [Ha|Ha].
    - apply (H ($"b")); [exact key_b|]. rewrite <- Ha. discriminate.
    - apply (H ($"a") key_a Ha). }
  apply (inv_pass fs d fs' d' Hi Hw); [intros k t Hk; apply Hd in Hk; tauto|]. intros k t Hk Hord. destruct (Hd k t Hk) as [_ Hne].
  destruct (H k Hord Hne) as [[H1 H2] _]. rewrite He in H1, H2. change (location (s_cwd E0) (fst (path_split (key_dir p k1)))) with (U k1) in H1, H2.
  rewrite (ground_is k1 k Hk1 (proj1 Hord)), <- (dir_is k (proj1 Hord)) in H1, H2. auto.
Qed.
Lemma forget_some k1 d k t : forget k1 d k = Some t -> d k = Some t /\ k <> k1.
Proof. unfold forget. destruct (str_eq_dec k k1); [discriminate|auto]. Qed.
Definition unlimited (E : senv) : senv :=
  mkSenv (s_class E) (s_ser E) (s_sto E) (s_write E) (s_read E) (s_uuid E) (s_float E) (s_cwd E) (s_retouch E) (s_validate E) (s_clean E) (s_suffix E) None.

Theorem history_inv fs d : history E0 p fs d -> inv fs d.
Proof.
  induction 1 as [fs d Hw Hst|d E n K M k o w t wv o' j w' _ IH [Hsame Hun] Hsr Hord Hho Hv Hs Hr|d E n k o w r w' _ IH [Hsame Hun] Hord Hs|d E n k o w r w' _ IH [Hsame Hun] Hord Hs
    |d E n k w r w' _ IH [Hsame Hun] Hord Hs|d E n k w w' _ IH [Hsame Hun] Hord Hs Hgone|d E n k dv df w r w' _ IH [Hsame Hun] Hord Hs|d E K M o w r w' _ IH [Hsame Hun] Hs|d fs fs' _ IH Hw Hf].
  - split; [assumption|]. intros k x Hx. destruct (Hst k x Hx) as (-> & H1 & H2). split; [assumption|exact H2].
  - assert (He : s_cwd E = s_cwd E0) by apply Hsame. assert (Hc : absolute (s_cwd E)) by (rewrite He; exact Hc0). pose proof Hord as (K1 & K2 & K3).
    assert (Hfg : inv (w_fs w') (forget k d)).
    { apply (inv_keeps E (w_fs w) d (w_fs w') _ k He K1 IH (forget_some k d)). intros k' (L1 & L2 & L3) Hne. eapply save_keeps; try eassumption. apply IH. }
    destruct Hsr as (Q1 & Q2 & Q3 & Q4 & Q5 & Q6 & Q7).
    assert (Hkept : forall E2 m w2, same_code E E2 -> s_limit E2 = None -> n + Nat.max K M < m -> well_formed (w_fs w2) ->
       (forall q, inside q (D k) -> file_at (w_fs w2) q = file_at (w_fs w') q) ->
       (o_gitignore p = true -> forall s, file_at (w_fs w') (U k ++ [$".gitignore"]) = Some (Text s) -> exists s', file_at (w_fs w2) (U k ++ [$".gitignore"]) = Some (Text s')) ->
       alive (D k) k (w_fs w') /\ (o_gitignore p = true -> listed (U k ++ [$".gitignore"]) k (w_fs w')) /\ shows k t m E2 w2).
    { intros E2 m w2 J1 J2 J3 J4 J5 J6.
      assert (Hig : ignore_loc (s_cwd E) (o_cluster p) (key_dir p k) = U k ++ [$".gitignore"]) by (rewrite He, Hcl; reflexivity).
      assert (Hown : forall l, own_ignore E p k l -> ~ happened w w' (EvWrite l) /\ ~ happened w wv (EvRead l)) by (intros l (_ & Hx & _); congruence).
      assert (Hdir : absolute (key_dir p k)) by (apply key_dir_absolute; assumption).
      destruct Hho as [Hho|[Hho Hsp]].
      - destruct (files_kept_listed E E2 n m K M p k o w t wv o' j w' w2 (fun _ u => u = []) (fun ev => match ev with EvRemove _ _ => False | _ => True end) (fun _ _ _ => False)) as (R1 & R2 & R3);
          trivial; try (apply IH); try (cbn zeta; rewrite ?Hig, ?He; auto; fail).
        + intros comps u n0 cx w0 r w1 -> _ _ Hrm. cbn [rm_all mapM] in Hrm. unfold ret in Hrm. injection Hrm as _ <-.
          split; [exists []; split; [reflexivity|constructor]|intros _ _ q []].
        + rewrite Hig in R2. rewrite He in R1. split; [exact R1|]. split; [intros Hgt; destruct (R2 Hgt Hcl K3) as (s & S1 & S2); exists s; auto|exact R3].
      - destruct (files_kept_listed E E2 n m K M p k o w t wv o' j w' w2 (fun _ _ => True) (fun _ => True) dropped_record) as (R1 & R2 & R3);
          trivial; try (apply IH); try (cbn zeta; rewrite ?Hig, ?He; auto; fail).
        + intros comps u n0 cx w0 r w1 _ Hsc Hok Hrm. eapply any_deletion; eassumption.
        + right. assumption.
        + rewrite Hig in R2. rewrite He in R1. split; [exact R1|]. split; [intros Hgt; destruct (R2 Hgt Hcl K3) as (s & S1 & S2); exists s; auto|exact R3]. }
    assert (Hsu : same_code E (unlimited E)) by (repeat split).
    destruct (Hkept (unlimited E) (S (n + Nat.max K M)) w' Hsu eq_refl ltac:(lia)) as (R1 & R2 & _); [apply Hfg|auto|intros _ s; eauto|].
    split; [apply Hfg|]. intros k' t' Hk'. unfold put in Hk'. destruct (str_eq_dec k' k) as [->|Hne].
    + injection Hk' as <-. split; [assumption|]. split; [assumption|]. split; [assumption|]. exists (n + Nat.max K M). intros E2 m w2 J1 J2 J3 J4 J5 J6.
      apply Hkept; try assumption; [|intros Hgt s _; auto].
      destruct Hsame as (A1 & A2 & A3 & A4 & A5), J1 as (B1 & B2 & B3 & B4 & B5). repeat split; congruence.
    + apply Hfg. unfold forget. destruct (str_eq_dec k' k); [contradiction|assumption].
  - assert (He : s_cwd E = s_cwd E0) by apply Hsame. assert (Hc : absolute (s_cwd E)) by (rewrite He; exact Hc0). pose proof Hord as (K1 & K2 & K3).
    apply (inv_keeps E (w_fs w) d (w_fs w') _ k He K1 IH (forget_some k d)). intros k' (L1 & L2 & L3) Hne. eapply save_keeps; try eassumption. apply IH.
  - assert (He : s_cwd E = s_cwd E0) by apply Hsame. assert (Hc : absolute (s_cwd E)) by (rewrite He; exact Hc0). pose proof Hord as (K1 & K2 & K3).
    apply (inv_keeps E (w_fs w) d (w_fs w') _ k He K1 IH (forget_some k d)). intros k' (L1 & L2 & L3) Hne. eapply store_keeps; try eassumption. apply IH.
  - assert (He : s_cwd E = s_cwd E0) by apply Hsame. assert (Hc : absolute (s_cwd E)) by (rewrite He; exact Hc0). pose proof Hord as (K1 & K2 & K3).
    apply (inv_keeps E (w_fs w) d (w_fs w') _ k He K1 IH (forget_some k d)). intros k' (L1 & L2 & L3) Hne. eapply clean_keeps; try eassumption. apply IH.
  - assert (He : s_cwd E = s_cwd E0) by apply Hsame. assert (Hc : absolute (s_cwd E)) by (rewrite He; exact Hc0). pose proof Hord as (K1 & K2 & K3).
    assert (Hfg : inv (w_fs w') (forget k d)).
    { apply (inv_keeps E (w_fs w) d (w_fs w') _ k He K1 IH (forget_some k d)). intros k' (L1 & L2 & L3) Hne. eapply clean_keeps; try eassumption. apply IH. }
    split; [apply Hfg|]. intros k' x Hk'. unfold put in Hk'. destruct (str_eq_dec k' k) as [->|Hne].
    + injection Hk' as <-. split; [assumption|exact Hgone].
    + apply Hfg. unfold forget. destruct (str_eq_dec k' k); [contradiction|assumption].
  - assert (He : s_cwd E = s_cwd E0) by apply Hsame. assert (Hc : absolute (s_cwd E)) by (rewrite He; exact Hc0). pose proof Hord as (K1 & K2 & K3).
    assert (Hld : forall k', ordinary_key k' -> stays E p k k' (w_fs w) (w_fs w') /\ well_formed (w_fs w')).
    { intros k' (L1 & L2 & L3). eapply load_stays; try eassumption. apply IH. }
    apply (inv_pass (w_fs w) d); [exact IH|apply (Hld k Hord)|auto|]. intros k' t' _ Hord'. destruct (Hld k' Hord') as [[H1 H2] _].
    rewrite He in H1, H2. change (location (s_cwd E0) (fst (path_split (key_dir p k)))) with (U k) in H1, H2.
    rewrite (ground_is k k' K1 (proj1 Hord')) in H1, H2. rewrite <- (dir_is k' (proj1 Hord')) in H2. split; [|exact H2]. intros q Hq. apply H1.
    rewrite (dir_is k' (proj1 Hord')) in Hq. intros ->. destruct Hq as [r0 Hx]. rewrite <- app_assoc in Hx. apply app_inv_head in Hx. apply (f_equal (hd [])) in Hx. cbn [app hd] in Hx.
    destruct Hord' as (_ & Hx' & _). congruence.
  - assert (He : s_cwd E = s_cwd E0) by apply Hsame. assert (Hc : absolute (s_cwd E)) by (rewrite He; exact Hc0).
    pose proof (calm_view E Hc (List.length (w_mounts w)) K M o w (le_n _)) as Hq. rewrite Hs in Hq. destruct Hq as ((Q1 & _) & _ & _ & Q2). cbn [snd] in *.
    apply (inv_pass (w_fs w) d); [exact IH|apply Q2, IH|auto|]. intros k t _ _. split; [intros q _; apply Q1|]. intros _ (s & S1 & S2). exists s. rewrite Q1. auto.
  - apply (inv_pass fs d); [exact IH|exact Hw|auto|]. intros k t Hk Hord. split; [intros q Hq; eapply Hf; [exact Hk|left; exact Hq]|].
    intros _ (s & S1 & S2). exists s. rewrite <- ignore_is in * by apply Hord. rewrite (Hf k t _ Hk (or_intror eq_refl)). auto.
Qed.
End Dict.

(** ** C82 *)
(** Whatever runs of the program did to the repository: what was last saved under a key, and not forgotten since, is what
    loading the key shows. *)
Theorem C82_repository_is_a_dictionary : forall E0 p fs d k t,
  absolute (s_cwd E0) -> absolute (o_base p) -> o_cluster p = true ->
  history E0 p fs d -> d k = Some (Holds t) ->
  exists b, forall E2 m w2, same_code E0 E2 -> s_limit E2 = None -> b < m -> w_fs w2 = fs ->
    exists o2 w3 w4, load E2 m p k None None w2 = (Ok o2, w3) /\ view E2 m m o2 w3 = (Ok t, w4).
Proof.
  intros E0 p fs d k t Hc Hb Hcl H Hk. destruct (history_inv E0 p Hc Hb Hcl fs d H) as [Hw Hi]. destruct (Hi k (Holds t) Hk) as (I1 & I2 & I3 & (b & I4)).
  exists b. intros E2 m w2 J1 J2 J3 J4. apply I4; try assumption; rewrite J4; [assumption|auto|]. intros Hg. destruct (I2 Hg) as (s & S1 & _). eauto.
Qed.
(** A key that is known to hold nothing: loading it gives the default or raises an error, as if the key had never been
    used.  (A directory with the name of its json file would be in the way.) *)
Theorem C82_absent_keys : forall E0 p fs d k,
  absolute (s_cwd E0) -> absolute (o_base p) -> o_cluster p = true ->
  history E0 p fs d -> d k = Some Absent -> is_dir fs (key_json E0 p k) = false ->
  forall E2 m dv df w2, same_code E0 E2 -> s_limit E2 = None -> w_fs w2 = fs ->
    exists w3, load E2 m p k dv df w2 =
      (match dv with Some v => Ok v | None => match df with Some v => Ok v | None => Exn FileNotFoundError end end, w3).
Proof.
  intros E0 p fs d k Hc Hb Hcl H Hk Hno E2 m dv df w2 Hs Hl Hf. destruct (history_inv E0 p Hc Hb Hcl fs d H) as [Hw Hi]. destruct (Hi k Absent Hk) as ((I1 & _) & I2).
  assert (He : s_cwd E2 = s_cwd E0) by apply Hs.
  assert (Hj : json_at E2 p k = key_json E0 p k).
  { unfold json_at, key_json. rewrite He, requested_join2. apply location_snoc. apply plain_clean, plain_json. assumption. }
  destruct (C48_default_iff_no_file E2 m p k dv df w2) as (w3 & H3 & _); [rewrite He; assumption|assumption|rewrite Hf; assumption| |exists w3; exact H3].
  rewrite Hj, Hf. unfold exists_at. unfold is_dir in Hno. unfold file_at in I2. fold (key_json E0 p k) in I2. destruct (lookup fs (key_json E0 p k)) as [[c|es]|]; [discriminate|discriminate|reflexivity].
Qed.
(** Deleting from the dictionary: cleaning a key that holds an instance of a modelclass, or an mlist, mruns or mdict with
    options, leaves the key empty if [clean] returns. *)
Definition object_tree (t : tree) : Prop := match t with TModel _ _ | TSeq _ _ | TMap _ _ => True | _ => False end.
Theorem C82_clean_deletes : forall E0 p fs d k t,
  absolute (s_cwd E0) -> absolute (o_base p) -> o_cluster p = true -> o_gitignore p = true ->
  history E0 p fs d -> d k = Some (Holds t) -> object_tree t ->
  exists b, forall E2 m w2 w', run_of E0 E2 -> s_limit E2 = None -> b < m -> w_fs w2 = fs -> repo_clean E2 m p k w2 = (Ok tt, w') ->
    history E0 p (w_fs w') (put k Absent d).
Proof.
  intros E0 p fs d k t Hc Hb Hcl Hgt H Hk Ht. destruct (C82_repository_is_a_dictionary E0 p fs d k t Hc Hb Hcl H Hk) as (b & Hload).
  destruct (history_inv E0 p Hc Hb Hcl fs d H) as [Hw Hi]. destruct (Hi k (Holds t) Hk) as ((K1 & K2 & K3) & _ & (c & I3) & _).
  exists b. intros E2 m w2 w' Hrun Hl Hm Hf Hcln. pose proof Hrun as [Hs Hun]. assert (He : s_cwd E2 = s_cwd E0) by apply Hs. assert (Hc2 : absolute (s_cwd E2)) by (rewrite He; exact Hc).
  eapply d_cleaned; try eassumption; [rewrite Hf; assumption|exact (conj K1 (conj K2 K3))|].
  destruct (Hload E2 m w2 Hs Hl Hm Hf) as (o2 & w3 & w4 & L1 & L2).
  assert (Hp : with_default_gitignore p = p) by (destruct p; cbn in *; rewrite Hgt; reflexivity).
  unfold key_json. rewrite <- He. apply (clean_gone E2 p k Hc2 Hb Hcl K1 Hun m w2 w' o2 w3); try assumption.
  - rewrite Hf. assumption.
  - rewrite Hp, <- L1. apply C48_existing_file_wins; [assumption|]. unfold json_at, exists_at. rewrite He.
    rewrite requested_join2, location_snoc by (apply plain_clean, plain_json; assumption). rewrite Hf. unfold file_at in I3.
    destruct (lookup fs _); [reflexivity|discriminate].
  - eapply (load_stays E2 p k k); try eassumption. rewrite Hf. assumption.
  - destruct m as [|m]; [discriminate|]. cbn [view] in L2. unfold mbind at 1 in L2.
    destruct o2; try reflexivity; cbn [content_of fst] in L2; unfold ret at 1 in L2; cbn [fst] in L2; try discriminate;
      try (unfold ret in L2; injection L2 as <- _; contradiction);
      unfold mbind at 1 in L2; destruct (mapM _ _ _) as [[ts|e] w5]; unfold ret in L2; try discriminate; injection L2 as <- _; contradiction.
Qed.

(** ** An example *)
Lemma built_holds E w dir : forall o, built E o -> forall comps, holds E w dir comps o.
Proof.
  fix IH 2. intros o [a|l Hl|d0 Hd Hn|c d0 j ext ty H1 H2|c fs fds H1 H2 H3|q s Hs|p0 s Hs Hn|content t pre Hc Ho] comps.
  - apply h_atom.
  - apply h_list. intros x Hx. exact (IH x (Hl x Hx) comps).
  - apply h_dict; [|exact Hn]. intros k x Hx. destruct (Hd k x Hx) as [K1 K2]. split; [exact K1|exact (IH x K2 comps)].
  - eapply h_leaf; eassumption.
  - eapply h_model; [exact H1|exact H2|reflexivity|]. intros f v K1 K2 K3. destruct (H3 f v K1 K2 K3) as [K4 K5]. split; [exact (IH v K4 comps)|exact K5].
  - apply h_seq; [reflexivity|]. intros x Hx. exact (IH x (Hs x Hx) comps).
  - apply h_map; [reflexivity| |exact Hn]. intros k x Hx. exact (IH x (Hs k x Hx) comps).
  - apply h_rec; [|exact Ho]. intros sd _. exact (IH content Hc _).
Qed.
(** The model is saved under "new".  A second run loads it, changes it without accessing the waiting records, and saves it
    again.  A third run saves a list under "b" and dies while doing so.  A fourth cleans the key "old".  The
    next run that loads "new" sees what the second run saved. *)
Definition di_again : obj := kp_changed (fresh_record (blob "new")).
Definition di_env : senv :=
  mkSenv (s_class rt_env) (s_ser rt_env) (s_sto rt_env) (s_write rt_env) (s_read rt_env) (s_uuid rt_env)
    (s_float rt_env) (s_cwd rt_env) (s_retouch rt_env) (s_validate rt_env) (s_clean rt_env) (s_suffix rt_env) (Some 5).
Definition di_two : node := w_fs (snd (save rt_env 10 ex_opts ($"new") di_again kp_world)).
Definition di_three : node := w_fs (snd (save di_env 10 ex_opts ($"b") cr_list (mkWorld di_two [] [] 0 []))).
Definition di_four : node := w_fs (snd (repo_clean rt_env 10 ex_opts ($"old") (mkWorld di_three [] [] 0 []))).
Lemma key_new : ordinary_key ($"new").
Proof.
  split; [repeat split; try discriminate; cbn; intros Hx; repeat destruct Hx as [Hx|Hx]; try discriminate; contradiction|].
  split; [discriminate|]. intros c Hx; cbn in Hx; repeat destruct Hx as [<-|Hx]; try reflexivity; contradiction.
Qed.
Lemma key_old : ordinary_key ($"old").
Proof.
  split; [repeat split; try discriminate; cbn; intros Hx; repeat destruct Hx as [Hx|Hx]; try discriminate; contradiction|].
  split; [discriminate|]. intros c Hx; cbn in Hx; repeat destruct Hx as [<-|Hx]; try reflexivity; contradiction.
Qed.
Lemma rt_saving : saving_run rt_env.
Proof.
  destruct rt_registered as [H1 H2]. destruct kp_methods as [H3 H4]. pose proof rt_uuids as H5. repeat (split; [assumption|]). split; [left|]; reflexivity.
Qed.
Lemma rt_run : run_of rt_env rt_env.
Proof. split; [repeat split|left; reflexivity]. Qed.
Lemma cr_run : run_of rt_env di_env.
Proof. split; [repeat split|left; reflexivity]. Qed.
Definition di_empty : dict := fun k => if str_eq_dec k ($"a") then Some Absent else None.
Lemma di_start : history rt_env ex_opts ex_fs di_empty.
Proof.
  apply d_start; [cbn; repeat constructor; cbn; tauto|]. intros k x. unfold di_empty. destruct (str_eq_dec k ($"a")) as [->|]; [|discriminate].
  intros Hx. injection Hx as <-. split; [reflexivity|]. split; [exact key_a|]. vm_compute. reflexivity.
Qed.
Example C82_example :
  absolute (s_cwd rt_env) /\ absolute (o_base ex_opts) /\ o_cluster ex_opts = true /\
  (exists d, history rt_env ex_opts di_four d /\ d ($"new") = Some (Holds (kp_tree 4 "one" [TLeaf 0 ($"new")])) /\ d ($"b") = None /\ d ($"a") = Some Absent) /\
  di_three <> di_two /\
  fst (save di_env 10 ex_opts ($"b") cr_list (mkWorld di_two [] [] 0 [])) = Exn Crash /\
  exists o2 w3 w4, load rt_later 30 ex_opts ($"new") None None (mkWorld di_four [] [] 0 []) = (Ok o2, w3) /\
    view rt_later 30 30 o2 w3 = (Ok (kp_tree 4 "one" [TLeaf 0 ($"new")]), w4).
Proof.
  split; [eexists; reflexivity|]. split; [eexists; reflexivity|]. split; [reflexivity|]. split.
  - exists (forget ($"old") (forget ($"b") (put ($"new") (Holds (kp_tree 4 "one" [TLeaf 0 ($"new")])) (put ($"new") (Holds (kp_tree 3 "one" [])) di_empty)))).
    split; [|repeat split].
    assert (S1 : history rt_env ex_opts (w_fs cr_saved) (put ($"new") (Holds (kp_tree 3 "one" [])) di_empty)).
    { destruct (save rt_env 10 ex_opts ($"new") ex_model ex_world) as [r1 w1] eqn:Es. 
      assert (Hw1 : cr_saved = w1) by (unfold cr_saved; rewrite Es; reflexivity). rewrite Hw1.
      assert (Hr1 : exists x, r1 = Ok x) by (let v := eval vm_compute in (fst (save rt_env 10 ex_opts ($"new") ex_model ex_world)) in match v with Ok ?x => exists x end;
        change r1 with (fst (r1, w1)); rewrite <- Es; vm_compute; reflexivity).
      destruct Hr1 as [[o' j] ->].
      eapply (d_save rt_env ex_opts di_empty rt_env 10 11 11 ($"new") ex_model ex_world (kp_tree 3 "one" []) ex_world);
        [exact di_start|exact rt_run|exact rt_saving|exact key_new|left; apply built_holds, rt_built|vm_compute; reflexivity|exact Es|].
      intros l Hl. apply happened_in in Hl. cbn in Hl. contradiction. }
    assert (S2 : history rt_env ex_opts (w_fs kp_world) (put ($"new") (Holds (kp_tree 3 "one" [])) di_empty)).
    { destruct kp_loaded as [r2 w2] eqn:El. unfold kp_world. rewrite El. unfold kp_loaded in El.
      eapply (d_load rt_env ex_opts _ rt_env 11 ($"new") None None (mkWorld (w_fs cr_saved) [] [] 5 [])); [exact S1|exact rt_run|exact key_new|exact El]. }
    assert (S3 : history rt_env ex_opts di_two (put ($"new") (Holds (kp_tree 4 "one" [TLeaf 0 ($"new")])) (put ($"new") (Holds (kp_tree 3 "one" [])) di_empty))).
    { destruct C64_example as (_ & _ & _ & Hh & (wv & o' & j & w' & V1 & V2 & V3 & _)). unfold di_two, di_again. rewrite V2. cbn [snd].
      eapply (d_save rt_env ex_opts _ rt_env 10 11 11 ($"new") _ kp_world); [exact S2|exact rt_run|exact rt_saving|exact key_new|left; exact Hh|exact V1|exact V2|exact V3]. }
    assert (S4 : history rt_env ex_opts di_three (forget ($"b") (put ($"new") (Holds (kp_tree 4 "one" [TLeaf 0 ($"new")])) (put ($"new") (Holds (kp_tree 3 "one" [])) di_empty)))).
    { unfold di_three. destruct (save di_env 10 ex_opts ($"b") cr_list (mkWorld di_two [] [] 0 [])) as [r3 w3] eqn:E3. cbn [snd].
      eapply (d_save_any rt_env ex_opts _ di_env 10 ($"b") cr_list (mkWorld di_two [] [] 0 [])); [exact S3|exact cr_run|exact key_b|exact E3]. }
    unfold di_four. destruct (repo_clean rt_env 10 ex_opts ($"old") (mkWorld di_three [] [] 0 [])) as [r4 w4] eqn:E4. cbn [snd].
    eapply (d_clean rt_env ex_opts _ rt_env 10 ($"old") (mkWorld di_three [] [] 0 [])); [exact S4|exact rt_run|exact key_old|exact E4].
  - split; [vm_compute; discriminate|]. split; [vm_compute; reflexivity|].
    let v := eval vm_compute in (load rt_later 30 ex_opts ($"new") None None (mkWorld di_four [] [] 0 [])) in
    match v with (Ok ?o, ?w3) => let x := eval vm_compute in (view rt_later 30 30 o w3) in match x with (_, ?w4) => exists o, w3, w4 end end.
    split; vm_compute; reflexivity.
Qed.

(** The key "new" is cleaned: the dictionary no longer has it, and the next load gives the default. *)
Example C82_clean_example :
  let w' := snd (repo_clean rt_env 30 ex_opts ($"new") (mkWorld di_four [] [] 0 [])) in
  o_gitignore ex_opts = true /\ object_tree (kp_tree 4 "one" [TLeaf 0 ($"new")]) /\
  fst (repo_clean rt_env 30 ex_opts ($"new") (mkWorld di_four [] [] 0 [])) = Ok tt /\
  is_dir (w_fs w') (key_json rt_env ex_opts ($"new")) = false /\ file_at (w_fs w') (key_json rt_env ex_opts ($"new")) = None /\
  fst (load rt_later 30 ex_opts ($"new") (Some (OAtom (AInt 1))) None (mkWorld (w_fs w') [] [] 0 [])) = Ok (OAtom (AInt 1)).
Proof. vm_compute. repeat split. Qed.

Print Assumptions C82_repository_is_a_dictionary.
Print Assumptions C82_absent_keys.
Print Assumptions C82_clean_deletes.
