(** What the calls for one key leave of the other keys. *)
From Coq Require Import List Ascii String Bool Arith ZArith Lia.
From Verif Require Import Base PosixModel FsModel PathModel SerialModel StoreModel StoreFrame StoreMount StoreSpec StoreLocal StorePlace
     StoreRecord StoreSave StoreEvents SerialSpec SerialProof RoundSpec KeepSpec RoundProof ReplayProof DropProof KeepProof KeepSave PathSpec MountSpec DirSpec PosixProof FsProof DirProof TargetProof MountProof
     HistoryProof PathFacts PropsStore PropsRepo PropsRound PropsClean PropsDelete DictSpec.
Import ListNotations.

Local Arguments str_eq_dec : simpl never.
Local Arguments atom_eq_dec : simpl never.

(** The list of keys, [G], has a line for [k]; the directory of [k], [Dk], has the file of [k]. *)
Definition listed (G : loc) (k : str) (fs : node) : Prop := exists s, file_at fs G = Some (Text s) /\ In k (splitlines s).
Definition alive (Dk : loc) (k : str) (fs : node) : Prop := exists c, file_at fs (Dk ++ [k ++ $".json"]) = Some c.

Section Ignore.
Variable cwd : str.
Hypothesis Hc : absolute cwd.
Variable U : loc.
Variable k : str.
Hypothesis Hk : plain k.
Hypothesis Hgi : k <> $".gitignore".
Hypothesis Hone : one_line k.
Let G := U ++ [$".gitignore"].
Lemma gen_away d ig ck fs fs' : location cwd d = U -> gitignore_gen cwd fs d ig ck = Ok fs' -> forall q, q <> G -> file_at fs' q = file_at fs q.
Proof.
  intros Hd H q Hq. assert (HG : os_loc cwd (join2 d ($".gitignore")) = G) by (rewrite requested_os, gitignore_loc by assumption; unfold G; rewrite <- Hd; reflexivity).
  unfold gitignore_gen in H. rewrite HG in H. destruct (lookup fs G) as [[[s|j]|es]|] eqn:El; cbn [bind] in H; try discriminate;
    match type of H with match ?e with _ => _ end = _ => destruct e as [|e1 [|e2 es']] end;
    try (rewrite (write_file_lookup _ _ _ _ H); destruct (loc_eq_dec q G); congruence);
    unfold os_remove in H; rewrite El in H; [|discriminate]. injection H as <-. apply delete_leaf; [left; eauto|assumption].
Qed.
Lemma gen_listed d ig ck fs fs' : location cwd d = U -> gitignore_gen cwd fs d ig ck = Ok fs' -> exists_at fs (U ++ [k]) = true ->
  listed G k fs -> listed G k fs'.
Proof.
  intros Hd H He (s & Hs & Hin). assert (HG : os_loc cwd (join2 d ($".gitignore")) = G) by (rewrite requested_os, gitignore_loc by assumption; unfold G; rewrite <- Hd; reflexivity).
  assert (Hl : lookup fs G = Some (File (Text s))) by (unfold file_at in Hs; destruct (lookup fs G) as [[|]|]; congruence).
  unfold gitignore_gen in H. rewrite HG, Hl in H. cbn [bind] in H.
  match type of H with match sorted_set ?l with _ => _ end = _ => set (es := sorted_set l) in * end.
  assert (H1 : In ($".gitignore") es) by (apply sorted_set_In; left; reflexivity).
  assert (H2 : In k es).
  { apply sorted_set_In. right. apply in_or_app. right. apply filter_In. split; [exact Hin|].
    rewrite os_loc_location, location_snoc by (assumption || apply plain_clean; assumption). rewrite Hd, He. apply orb_true_r. }
  assert (H3 : write_file fs G (Text (join_lines es)) = Ok fs').
  { destruct es as [|e1 [|e2 es']]; [contradiction| |exact H]. destruct H1 as [H1|[]], H2 as [H2|[]]. congruence. }
  exists (join_lines es). split; [rewrite (write_file_lookup _ _ _ _ H3); destruct (loc_eq_dec G G); congruence|].
  apply join_lines_has; [assumption|assumption|apply Hk].
Qed.
Lemma alive_exists fs : alive (U ++ [k]) k fs -> exists_at fs (U ++ [k]) = true.
Proof.
  intros [c H]. assert (Hd : is_dir fs (U ++ [k]) = true).
  { eapply lookup_dir. intros Hx. unfold file_at in H. rewrite Hx in H. discriminate. }
  unfold exists_at, is_dir in *. destruct (lookup fs (U ++ [k])) as [[|]|]; congruence.
Qed.
(** Closing the mount of a key [k1] below [U]. *)
Lemma close_listed fs m fs' : well_formed fs -> location cwd (fst (path_split (m_dir m))) = U -> ~ inside G (location cwd (m_dir m)) ->
  mount_close cwd fs m = Ok fs' -> alive (U ++ [k]) k fs -> listed G k fs -> listed G k fs'.
Proof.
  intros Hw HU Hnot H Ha Hl. unfold mount_close in H. set (fs1 := prune_directories fs (os_loc cwd (m_dir m))) in *.
  assert (H1 : forall q, file_at fs1 q = file_at fs q) by (apply prune_directories_file_at; assumption).
  assert (Ha1 : alive (U ++ [k]) k fs1) by (destruct Ha as [c Ha]; exists c; rewrite H1; exact Ha).
  assert (Hl1 : listed G k fs1) by (destruct Hl as (s & Hs & Hi); exists s; rewrite H1; auto).
  destruct (m_gitignore m); cbn [negb] in H; [|injection H as <-; exact Hl1].
  destruct (flat_map _ _) as [|x r] in H; [injection H as <-; exact Hl1|]. destruct (m_cluster m).
  - destruct (path_split (m_dir m)) as [d n]. cbn [fst] in HU. eapply gen_listed; [exact HU|exact H|apply alive_exists; exact Ha1|exact Hl1].
  - destruct Hl1 as (s & Hs & Hi). exists s. split; [|exact Hi]. rewrite <- Hs.
    pose proof (gitignore_run cwd fs1 (m_dir m) (x :: r) (m_removed m) Hc) as E. cbn zeta in E. rewrite H in E.
    assert (Hq : G <> location cwd (m_dir m) ++ [$".gitignore"]) by (intros Hx; apply Hnot; rewrite Hx; eexists; reflexivity).
    set (G1 := location cwd (m_dir m) ++ [$".gitignore"]) in *.
    assert (K : forall es, write_file fs1 G1 (Text (join_lines es)) = Ok fs' -> file_at fs' G = file_at fs1 G).
    { intros es Hes. rewrite (write_file_lookup _ _ _ _ Hes). destruct (loc_eq_dec G G1); congruence. }
    destruct (lookup fs1 G1) as [[[s1|j]|es]|] eqn:El; try congruence;
      (destruct (gi_entries _ _ _ _ _) as [|e1 [|e2 es']]; [eapply K; symmetry; exact E| |eapply K; symmetry; exact E]);
      unfold os_remove in E; rewrite El in E; [|discriminate]. injection E as ->. apply delete_leaf; [left; eauto|assumption].
Qed.
End Ignore.

(** ** Calls for the key [k1], seen from another key [k] *)
Section Other.
Variable E : senv.
Variable p : opts.
Variables k1 k : str.
Hypothesis Hc : absolute (s_cwd E).
Hypothesis Hb : absolute (o_base p).
Hypothesis Hun : In (s_retouch E) unattended.
Hypothesis Hcl : o_cluster p = true.
Hypothesis Hk1 : plain k1.
Hypothesis Hg1 : k1 <> $".gitignore".
Hypothesis Hk : plain k.
Hypothesis Hgi : k <> $".gitignore".
Hypothesis Hone : one_line k.
Hypothesis Hne : k <> k1.
Let D0 := key_dir p k1.
Let U := location (s_cwd E) (fst (path_split D0)).
Let G := U ++ [$".gitignore"].
Let HD1 : location (s_cwd E) D0 = U ++ [k1]. Proof. apply key_parent; assumption. Qed.
Let Hdir : absolute D0. Proof. apply key_dir_absolute; assumption. Qed.
Definition keeps (fs fs' : node) : Prop :=
  (forall q, inside q (U ++ [k]) -> file_at fs' q = file_at fs q) /\ (alive (U ++ [k]) k fs -> listed G k fs -> listed G k fs').
Lemma keeps_refl fs : keeps fs fs.
Proof. split; auto. Qed.
Lemma keeps_trans a b c : keeps a b -> keeps b c -> keeps a c.
Proof.
  intros [H1 H2] [G1 G2]. split; [intros q Hq; rewrite G1, H1 by assumption; reflexivity|]. intros Ha Hl. apply G2; [|auto].
  destruct Ha as [x Ha]. exists x. rewrite H1 by (eexists; reflexivity). exact Ha.
Qed.
Lemma keeps_same fs fs' : (forall q, inside q (U ++ [k]) \/ q = G -> file_at fs' q = file_at fs q) -> keeps fs fs'.
Proof. intros H. split; [auto|]. intros _ (s & Hs & Hi). exists s. rewrite H by auto. auto. Qed.
Lemma away q : inside q (U ++ [k]) \/ q = G -> ~ inside q (location (s_cwd E) D0).
Proof.
  rewrite HD1. intros [[r ->]| ->] [r' H]; unfold G in H; rewrite <- ?app_assoc in H; apply app_inv_head in H; apply (f_equal (hd [])) in H; cbn [app hd] in H; congruence.
Qed.
Lemma keeps_inside fs fs' : (forall q, ~ inside q (location (s_cwd E) D0) -> file_at fs' q = file_at fs q) -> keeps fs fs'.
Proof. intros H. apply keeps_same. intros q Hq. apply H, away. exact Hq. Qed.

Section Mount.
Variable i : nat.
Definition kept (w w' : world) : Prop := keeps (w_fs w) (w_fs w') /\ (mnt_ok i D0 w -> mnt_ok i D0 w').
Lemma kept_refl w : kept w w. Proof. split; [apply keeps_refl|auto]. Qed.
Lemma kept_trans a b c : kept a b -> kept b c -> kept a c.
Proof. intros [H1 H2] [G1 G2]. split; [eapply keeps_trans; eassumption|auto]. Qed.
Lemma kept_ok a b : mnt_ok i D0 a -> kept a b -> mnt_ok i D0 b.
Proof. intros H [_ K]. auto. Qed.
Notation ok := (pres (mnt_ok i D0) kept).
Lemma ok_in {A} (m : M A) : pres (mnt_ok i D0) (only i D0 (fun q => inside q (location (s_cwd E) D0))) m -> ok m.
Proof. intros H w Hw. destruct (H w Hw) as (H1 & _ & H2). split; [apply keeps_inside; exact H1|exact H2]. Qed.
Lemma ok_ret {A} (a : A) : ok (ret a). Proof. apply pres_ret. exact kept_refl. Qed.
Lemma ok_raise {A} e : ok (@raise A e). Proof. apply pres_raise. exact kept_refl. Qed.
Lemma ok_bind {A B} (m : M A) (f : A -> M B) : ok m -> (forall a, ok (f a)) -> ok (mbind m f).
Proof. apply pres_bind; [exact kept_trans|exact kept_ok]. Qed.
Lemma ok_bind_in {A B} (m : M A) (f : A -> M B) : ok m -> (forall a w w', mnt_ok i D0 w -> m w = (Ok a, w') -> ok (f a)) -> ok (mbind m f).
Proof. apply pres_bind_in; [exact kept_trans|exact kept_ok]. Qed.
Lemma ok_close : ok (close_context E (mkCtx i [])).
Proof.
  intros w Hok. destruct (close_context E (mkCtx i []) w) as [r w'] eqn:H. cbn [snd].
  assert (Ho : mnt_ok i D0 w').
  { pose proof (only_close E i D0 Hc (fun _ => True) (fun _ _ => I) I (mkCtx i []) w r w' eq_refl Hok H) as (_ & _ & Ho). auto. }
  split; [|auto]. unfold close_context in H. apply op_cases in H as [(_ & -> & _)|H]; [apply keeps_refl|].
  cbn [logged w_mounts w_fs c_mnt] in H. pose proof Hok as [(m & Hm & Hd & Ht) Hw]. rewrite Hm in H.
  destruct (mount_close (s_cwd E) (w_fs w) m) as [fs|e] eqn:Em; injection H as _ <-; cbn [set_fs w_fs logged].
  - split.
    + intros q Hq. destruct (close_files _ _ _ _ Hc Hw Em) as (d & Hdd & Hf). apply Hf. intros ->. destruct Hdd as [->| ->]; rewrite Hd in Hq.
      * apply (away _ (or_introl Hq)). eexists. reflexivity.
      * fold U in Hq. destruct Hq as [rr Hr]. rewrite <- app_assoc in Hr. apply app_inv_head in Hr. apply (f_equal (hd [])) in Hr. cbn [app hd] in Hr. congruence.
    + intros Ha Hl. eapply (close_listed (s_cwd E) Hc U k); try eassumption; rewrite Hd; [reflexivity|]. apply away. right. reflexivity.
  - apply keeps_same. intros q _. apply prune_directories_file_at; assumption.
Qed.
Let Ain : forall q, inside q (location (s_cwd E) D0) -> inside q (location (s_cwd E) D0). Proof. auto. Qed.
Lemma ok_save n key o1 : ok (
  x <- ctx_prepare E (mkCtx i []) (json_name key) None;;
  dir <- ctx_dir (mkCtx i []);;
  nm <- lift (fspath (snd x));;
  let l := os_loc (s_cwd E) (join2 dir nm) in
  y <- serialize E n (Some (mkCtx i [])) o1;;
  _ <- m_write E l (Text []);;
  _ <- m_write E l (Json (to_json (s_float E) (snd y)));;
  _ <- close_context E (mkCtx i []);;
  ret y).
Proof.
  apply ok_bind_in; [apply ok_in, on_prep; auto|]. intros [local nt] w w1 Hw Hp. cbn [snd].
  destruct (ctx_prepare_inv E i D0 Hc Hdir _ Ain [] _ _ None _ _ _ _ Hw (sctx_top i) Hun Hp) as (a & q & u & rest & _ & _ & _ & Hr & H1 & _ & H3).
  apply ok_bind_in; [apply ok_in, on_dir|]. intros dir w2 w3 Hw2 Hd. destruct (ctx_dir_inv E i D0 Hdir _ _ _ Hw2 Hd) as [Hd1 Hd2].
  apply ok_bind_in; [apply ok_in, on_lift|]. intros nm w4 w5 Hw4 Hn. cbn zeta.
  assert (Hin : inside (os_loc (s_cwd E) (join2 dir nm)) (location (s_cwd E) D0)).
  { unfold lift in Hn. injection Hn as Hn _. unfold fspath in Hn. rewrite H1 in Hn. unfold t_name in H3.
    destruct (t_stem nt) as [st|]; [|discriminate]. destruct (t_suffix nt) as [su|]; [|discriminate].
    injection H3 as H3. injection Hn as Hn. rewrite <- Hn, H3, join2_nil_l. rewrite os_loc_location by assumption.
    pose proof Hr as (Hcr & _). destruct (last_rel rest Hcr) as [Hl _]. cbn zeta in Hl. rewrite location_last by assumption.
    rewrite Hd1. eexists. reflexivity. }
  apply ok_bind; [eapply ok_in, on_ser; try apply sctx_top; auto|intros y]. apply ok_bind; [apply ok_in, on_write; auto|intros _].
  apply ok_bind; [apply ok_in, on_write; auto|intros _]. apply ok_bind; [apply ok_close|intros _]. apply ok_ret.
Qed.
Lemma ok_load n key dv df : ok (
  dir <- ctx_dir (mkCtx i []);;
  let l := os_loc (s_cwd E) (join2 dir (key ++ $".json")) in
  e <- m_exists E l;;
  o <- (if e then
          x <- m_read E l;;
          match x with
          | Json j => deserialize E n (Some (mkCtx i [])) (of_json j)
          | Text _ => raise ValueError
          end
        else match dv, df with
             | None, None => raise FileNotFoundError
             | None, Some v => ret v
             | Some v, _ => ret v
             end);;
  _ <- close_context E (mkCtx i []);;
  ret o).
Proof.
  apply ok_bind; [apply ok_in, on_dir|intros dir]. cbn zeta. apply ok_bind; [apply ok_in, on_exists|intros e]. apply ok_bind; [|intros o].
  - destruct e.
    + apply ok_bind; [apply ok_in, on_read|intros x]. destruct x; [apply ok_raise|apply ok_in, on_de; auto].
    + destruct dv, df; first [apply ok_ret|apply ok_raise].
  - apply ok_bind; [apply ok_close|intros _]. apply ok_ret.
Qed.
Lemma ok_rec_target o t : ok (rec_target E o t).
Proof.
  unfold rec_target. destruct (is_complete t); [apply ok_ret|]. repeat (apply ok_bind; [apply ok_in, on_uuid|intros]). apply ok_ret.
Qed.
Lemma ok_store n o t : ok (
  t <- rec_target E o t;;
  y <- serialize E n (Some (mkCtx i [])) (ORec o t false None None);;
  _ <- close_context E (mkCtx i []);;
  ret (snd y)).
Proof.
  apply ok_bind; [apply ok_rec_target|intros t']. apply ok_bind; [eapply ok_in, on_ser; try apply sctx_top; auto|intros y].
  apply ok_bind; [apply ok_close|intros _]. apply ok_ret.
Qed.
Lemma ctx_dir_val w dir w' : mnt_ok i D0 w -> ctx_dir (mkCtx i []) w = (Ok dir, w') -> dir = join2 D0 [].
Proof.
  intros [(m & Hm & Hd & _) _] H. unfold ctx_dir, mbind, m_dir_of in H. cbn [c_mnt c_sub] in H. rewrite Hm in H. unfold ret in H.
  injection H as H _. rewrite <- H, Hd. reflexivity.
Qed.
Lemma ok_clean n o : ok (
  _ <- remove E n (mkCtx i []) o;;
  dir <- ctx_dir (mkCtx i []);;
  let l := os_loc (s_cwd E) (join2 dir (k1 ++ $".json")) in
  _ <- op E (EvRemove i (k1 ++ $".json")) (fun w =>
         match lookup (w_fs w) l with
         | Some (File _) => (Ok tt, set_fs w (delete_at (w_fs w) l))
         | _ => (Ok tt, w)
         end);;
  _ <- close_context E (mkCtx i []);;
  if o_cluster p then op E (EvRemove i []) (fun w =>
      match lookup (w_fs w) (os_loc (s_cwd E) dir) with
      | Some (Dir []) =>
          m_unignore E (parent_dir dir) k1 (set_fs w (delete_at (w_fs w) (os_loc (s_cwd E) dir)))
      | Some (Dir _) => (Ok tt, w)
      | Some (File _) => (Exn NotADirectoryError, w)
      | None => (Exn FileNotFoundError, w)
      end)
  else m_unignore E dir (k1 ++ $".json")).
Proof.
  rewrite Hcl.
  apply ok_bind; [apply ok_in, on_rm; auto|intros _]. apply ok_bind_in; [apply ok_in, on_dir|]. intros dir w0 w0' Hw0 Hd.
  rewrite (ctx_dir_val _ _ _ Hw0 Hd). cbn zeta.
  assert (Hl1 : os_loc (s_cwd E) (join2 (join2 D0 []) (k1 ++ $".json")) = location (s_cwd E) D0 ++ [k1 ++ $".json"]).
  { rewrite os_loc_location by assumption. rewrite location_snoc by (apply plain_clean, plain_json; assumption).
    rewrite location_join2_any. reflexivity. }
  assert (Hl2 : os_loc (s_cwd E) (join2 D0 []) = location (s_cwd E) D0) by (rewrite os_loc_location, location_join2_any by assumption; reflexivity).
  assert (Hpd : parent_dir (join2 D0 []) = fst (path_split D0)).
  { assert (Hpp : parent_dir D0 = fst (path_split D0)) by (apply key_parent_dir; assumption). rewrite <- Hpp. unfold parent_dir. f_equal. f_equal. unfold join2. cbn [isabs]. clear - D0. generalize D0. intros d0. destruct d0 as [|x r]; [reflexivity|]. destruct (ends_sep (x :: r)); [rewrite app_nil_r; reflexivity|apply rstrip_sep_snoc]. }
  rewrite Hl1, Hl2, Hpd. apply ok_bind; [|intros _; apply ok_bind; [apply ok_close|intros _]].
  - intros w Hok. destruct (op E _ _ w) as [r w'] eqn:H. cbn [snd]. apply op_cases in H as [(_ & -> & _)|H]; [apply kept_refl|].
    cbn [logged w_fs] in H. set (l := location (s_cwd E) D0 ++ [k1 ++ $".json"]) in *.
    destruct (lookup (w_fs w) l) as [[c|]|] eqn:El; injection H as _ <-; try (split; [apply keeps_refl|auto]).
    split; [|intros [K1 K2]; split; [exact K1|apply delete_at_wf; exact K2]]. cbn [set_fs logged w_fs]. apply keeps_inside. intros q Hq.
    apply delete_leaf; [left; eauto|]. intros ->. apply Hq. eexists. reflexivity.
  - intros w Hok. destruct (op E _ _ w) as [r w'] eqn:H. cbn [snd]. apply op_cases in H as [(_ & -> & _)|H]; [apply kept_refl|].
    cbn [logged w_fs] in H. set (D := location (s_cwd E) D0) in *.
    destruct (lookup (w_fs w) D) as [[c|[|e es]]|] eqn:El; try (injection H as _ <-; split; [apply keeps_refl|auto]).
    set (fs1 := delete_at (w_fs w) D) in *.
    assert (Hfs1 : forall q, ~ inside q D -> file_at fs1 q = file_at (w_fs w) q).
    { intros q Hq. apply delete_leaf; [right; exact El|]. intros ->. apply Hq. exists []. rewrite app_nil_r. reflexivity. }
    assert (Hwf1 : well_formed fs1) by (apply delete_at_wf; apply Hok).
    assert (Hk1fs : keeps (w_fs w) fs1) by (apply keeps_inside; exact Hfs1).
    unfold m_unignore in H. cbn [set_fs logged w_fs] in H.
    destruct (gitignore_gen (s_cwd E) fs1 (fst (path_split D0)) [] _) as [fs2|e] eqn:Eg; injection H as _ <-; cbn [set_fs logged w_fs].
    + split; [|intros [K1 K2]; split; [exact K1|]; eapply gitignore_gen_wf; eassumption]. cbn [set_fs w_fs]. eapply keeps_trans; [exact Hk1fs|]. split.
      * intros q Hq. eapply (gen_away (s_cwd E) Hc U); [reflexivity|exact Eg|]. intros ->. destruct Hq as [r0 Hr]. rewrite <- app_assoc in Hr. apply app_inv_head in Hr. apply (f_equal (hd [])) in Hr. cbn [app hd] in Hr. congruence.
      * intros Ha Hl. eapply (gen_listed (s_cwd E) Hc U k); try eassumption; [reflexivity|]. apply alive_exists. exact Ha.
    + split; [exact Hk1fs|]. intros [K1 K2]; split; [exact K1|exact Hwf1].
Qed.
End Mount.

(** The calls. *)
Theorem save_keeps n o w r w' : well_formed (w_fs w) -> save E n p k1 o w = (r, w') -> keeps (w_fs w) (w_fs w') /\ well_formed (w_fs w').
Proof.
  intros Hw H. unfold save in H.
  assert (Ho : exists r0, (if is_serializable E o then ret o else if is_storable E o then ret (fresh_record o) else raise ValueError) w = (r0, w)).
  { destruct (is_serializable E o); [eexists; reflexivity|]. destruct (is_storable E o); eexists; reflexivity. }
  destruct Ho as [r0 Ho]. unfold mbind at 1 in H. rewrite Ho in H. destruct r0 as [o1|e]; [|injection H as _ <-; split; [apply keeps_refl|exact Hw]].
  unfold mbind at 1 in H. unfold open_context at 1 in H. cbn [c_mnt] in H.
  destruct (ok_save (List.length (w_mounts w)) n k1 o1 (opened p k1 w) (opened_ok p k1 w Hw)) as [K1 K2].
  unfold opened in K1 at 2, K2 at 2. rewrite H in K1, K2. cbn [snd] in K1, K2. split; [exact K1|]. apply (K2 (opened_ok p k1 w Hw)).
Qed.
Theorem store_keeps n o w r w' : well_formed (w_fs w) -> store E n p k1 o w = (r, w') -> keeps (w_fs w) (w_fs w') /\ well_formed (w_fs w').
Proof.
  intros Hw H. unfold store in H. destruct (is_storable E o); [|injection H as _ <-; split; [apply keeps_refl|exact Hw]].
  unfold mbind at 1 in H. unfold open_context at 1 in H. cbn [c_mnt] in H.
  destruct (ok_store (List.length (w_mounts w)) n o (mkTarget (Some []) (Some k1) None) (opened p k1 w) (opened_ok p k1 w Hw)) as [K1 K2].
  unfold opened in K1 at 2, K2 at 2. rewrite H in K1, K2. cbn [snd] in K1, K2. split; [exact K1|]. apply (K2 (opened_ok p k1 w Hw)).
Qed.
Theorem clean_keeps n w r w' : well_formed (w_fs w) -> repo_clean E n p k1 w = (r, w') -> keeps (w_fs w) (w_fs w') /\ well_formed (w_fs w').
Proof.
  intros Hw H. unfold repo_clean in H. set (p1 := with_default_gitignore p) in *. unfold mbind at 1 in H.
  destruct (load E n p1 k1 (Some (OAtom ANone)) None w) as [rl wl] eqn:El.
  assert (Hload : keeps (w_fs w) (w_fs wl) /\ well_formed (w_fs wl)).
  { unfold load in El. unfold mbind at 1 in El. unfold open_context at 1 in El. cbn [c_mnt] in El.
    destruct (ok_load (List.length (w_mounts w)) n k1 (Some (OAtom ANone)) None (opened p1 k1 w) (opened_ok p1 k1 w Hw)) as [K1 K2].
    unfold opened in K1 at 2, K2 at 2. rewrite El in K1, K2. cbn [snd] in K1, K2. split; [exact K1|]. apply (K2 (opened_ok p1 k1 w Hw)). }
  destruct Hload as [L1 L2]. destruct rl as [o|e]; [|injection H as _ <-; auto].
  destruct (negb (is_removable o)); [injection H as _ <-; auto|].
  unfold mbind at 1 in H. unfold open_context at 1 in H. cbn [c_mnt] in H. change (o_cluster p1) with (o_cluster p) in H.
  destruct (ok_clean (List.length (w_mounts wl)) n o (opened p1 k1 wl) (opened_ok p1 k1 wl L2)) as [K1 K2].
  unfold opened in K1 at 2, K2 at 2. change (o_cluster p1) with (o_cluster p) in K1, K2. rewrite H in K1, K2. cbn [snd] in K1, K2. split; [eapply keeps_trans; [exact L1|exact K1]|]. apply (K2 (opened_ok p1 k1 wl L2)).
Qed.
End Other.

(** ** Loading a key, seen from any key *)
Section Load.
Variable E : senv.
Variable p : opts.
Variables k1 k : str.
Hypothesis Hc : absolute (s_cwd E).
Hypothesis Hb : absolute (o_base p).
Hypothesis Hcl : o_cluster p = true.
Hypothesis Hk1 : plain k1.
Hypothesis Hg1 : k1 <> $".gitignore".
Hypothesis Hk : plain k.
Hypothesis Hgi : k <> $".gitignore".
Hypothesis Hone : one_line k.
Let D0 := key_dir p k1.
Let U := location (s_cwd E) (fst (path_split D0)).
Let G := U ++ [$".gitignore"].
Let HD1 : location (s_cwd E) D0 = U ++ [k1]. Proof. apply key_parent; assumption. Qed.
Let Hdir : absolute D0. Proof. apply key_dir_absolute; assumption. Qed.
Definition stays (fs fs' : node) : Prop :=
  (forall q, q <> G -> file_at fs' q = file_at fs q) /\ (alive (U ++ [k]) k fs -> listed G k fs -> listed G k fs').
Lemma stays_same fs fs' : (forall q, file_at fs' q = file_at fs q) -> stays fs fs'.
Proof. intros H. split; [auto|]. intros _ (s & Hs & Hi). exists s. rewrite H. auto. Qed.
Lemma other_file q : inside q (U ++ [k]) -> q <> G.
Proof.
  intros [r ->] H. unfold G in H. rewrite <- app_assoc in H. apply app_inv_head in H. apply (f_equal (hd [])) in H. cbn [app hd] in H. congruence.
Qed.
Lemma stays_trans a b c : stays a b -> stays b c -> stays a c.
Proof.
  intros [H1 H2] [G1 G2]. split; [intros q Hq; rewrite G1, H1 by assumption; reflexivity|]. intros Ha Hl. apply G2; [|auto].
  destruct Ha as [x Ha]. exists x. rewrite H1; [exact Ha|]. apply other_file. eexists. reflexivity.
Qed.
Variable i top : nat.
Definition before (w : world) : Prop := few top w /\ exists m, nth_error (w_mounts w) i = Some m /\ m_dir m = D0 /\ touched_ok (m_touched m) /\ m_cluster m = true /\ well_formed (w_fs w).
Definition still (w w' : world) : Prop := stays (w_fs w) (w_fs w') /\ statics w' = statics w /\ (few top w -> few top w') /\ (mnt_ok i D0 w -> mnt_ok i D0 w').
Lemma still_refl w : still w w.
Proof. split; [apply stays_same; reflexivity|auto]. Qed.
Lemma still_trans a b c : still a b -> still b c -> still a c.
Proof. intros (H1 & H2 & H3 & H4) (G1 & G2 & G3 & G4). split; [eapply stays_trans; eassumption|]. split; [congruence|auto]. Qed.
Lemma before_still a b : before a -> still a b -> before b.
Proof.
  intros (H1 & m & M1 & M2 & M3 & M4 & M5) (S1 & S2 & S3 & S4). split; [auto|].
  assert (Ho : mnt_ok i D0 b) by (apply S4; split; [exists m; auto|assumption]). destruct Ho as [(mb & B1 & B2 & B3) B4].
  exists mb. repeat (split; [assumption|]). split; [|assumption]. pose proof (statics_nth _ _ _ B1) as Hn. rewrite S2, (statics_nth _ _ _ M1) in Hn.
  unfold static in Hn. injection Hn as _ Hn _. congruence.
Qed.
Notation ok := (pres before still).
Lemma ok_calm {A} (m : M A) : calm top m -> (forall w, statics (snd (m w)) = statics w) -> ok m.
Proof.
  intros Hm Hs w Hw. destruct (Hm w (proj1 Hw)) as ((Q1 & Q2) & _ & L & _). split; [apply stays_same; exact Q1|]. split; [apply Hs|].
  split; [unfold few; rewrite L; auto|]. apply Q2. exact Hdir.
Qed.
Lemma ok_bind' {A B} (m : M A) (f : A -> M B) : ok m -> (forall a, ok (f a)) -> ok (mbind m f).
Proof. apply pres_bind; [exact still_trans|exact before_still]. Qed.
Lemma ok_close' : ok (close_context E (mkCtx i [])).
Proof.
  intros w Hok. pose proof Hok as (H1 & m & M1 & M2 & M3 & M4 & M5). destruct (close_context E (mkCtx i []) w) as [r w'] eqn:H. cbn [snd].
  assert (Hmo : mnt_ok i D0 w) by (split; [exists m; auto|assumption]).
  pose proof (only_close E i D0 Hc (fun _ => True) (fun _ _ => I) I (mkCtx i []) w r w' eq_refl Hmo H) as (_ & Hst & Ho).
  split; [|split; [exact Hst|split; [|exact Ho]]].
  - unfold close_context in H. apply op_cases in H as [(_ & -> & _)|H]; [apply stays_same; reflexivity|].
    cbn [logged w_mounts w_fs c_mnt] in H. rewrite M1 in H.
    destruct (mount_close (s_cwd E) (w_fs w) m) as [fs|e] eqn:Em; injection H as _ <-; cbn [set_fs w_fs logged].
    + split.
      * intros q Hq. apply (close_away _ _ _ _ Hc M5 Em). intros _. rewrite M2, M4. exact Hq.
      * intros Ha Hl. eapply (close_listed (s_cwd E) Hc U k); try eassumption; rewrite M2; [reflexivity|]. fold U G. rewrite HD1.
        intros [r0 Hr]. unfold G in Hr. rewrite <- app_assoc in Hr. apply app_inv_head in Hr. apply (f_equal (hd [])) in Hr. cbn [app hd] in Hr. congruence.
    + apply stays_same. intros q. apply prune_directories_file_at; assumption.
  - intros _. unfold few in *. apply (f_equal (@List.length _)) in Hst. unfold statics in Hst. rewrite !map_length in Hst. congruence.
Qed.
End Load.
Theorem load_stays E p k1 k : absolute (s_cwd E) -> absolute (o_base p) -> o_cluster p = true -> plain k1 -> k1 <> $".gitignore" ->
  plain k -> k <> $".gitignore" -> one_line k -> forall n dv df w r w', well_formed (w_fs w) -> load E n p k1 dv df w = (r, w') ->
  stays E p k1 k (w_fs w) (w_fs w') /\ well_formed (w_fs w').
Proof.
  intros Hc Hb Hcl Hk1 Hg1 Hk Hgi Hone n dv df w r w' Hw H. rewrite load_eq in H by assumption. cbn zeta in H. set (i := List.length (w_mounts w)) in *.
  match type of H with _ ?x = _ => change x with (opened p k1 w) in H end. set (top := S i).
  assert (Hbef : before p k1 i top (opened p k1 w)).
  { split.
    - unfold few, opened, top, i. cbn [w_mounts]. rewrite app_length. cbn. lia.
    - destruct (opened_ok p k1 w Hw) as [(m & M1 & M2 & M3) M4]. exists m. repeat (split; [assumption|]). split; [|assumption].
      unfold opened in M1. cbn [w_mounts] in M1. rewrite nth_error_app2, Nat.sub_diag in M1 by lia. injection M1 as <-. exact Hcl. }
  pose proof (fun A m => ok_calm E p k1 k Hb i top (A := A) m) as OC.
  assert (Hp : pres (before p k1 i top) (still E p k1 k i top)
     (e <- m_exists E (json_at E p k1);;
      o <- (if e then x <- m_read E (json_at E p k1);; match x with Json j => deserialize E n (Some (mkCtx i [])) (of_json j) | Text _ => raise ValueError end
            else match dv, df with None, None => raise FileNotFoundError | None, Some v => ret v | Some v, _ => ret v end);;
      _ <- close_context E (mkCtx i []);; ret o)).
  { assert (Hret : forall A (a : A), pres (before p k1 i top) (still E p k1 k i top) (ret a)) by (intros; apply OC; [apply calm_ret|reflexivity]).
    assert (Hrai : forall A e, pres (before p k1 i top) (still E p k1 k i top) (@raise A e)) by (intros; apply OC; [apply calm_raise|reflexivity]).
    apply ok_bind'; try assumption.
    - apply OC.
      + intros w0 _. destruct (m_exists E (json_at E p k1) w0) as [r0 w1] eqn:H0. unfold m_exists in H0.
        apply op_cases in H0 as [(_ & -> & _)|H0]; [apply calm_rel_refl|]. injection H0 as _ <-. apply calm_logged.
      + intros w0. destruct (m_exists E (json_at E p k1) w0) as [r0 w1] eqn:H0. unfold m_exists in H0.
        apply op_cases in H0 as [(_ & -> & _)|H0]; [reflexivity|]. injection H0 as _ <-. reflexivity.
    - intros e. apply ok_bind'; try assumption.
      + destruct e; [|destruct dv, df; auto]. apply ok_bind'; try assumption.
        * apply OC; [apply calm_read; assumption|]. intros w0. destruct (m_read E (json_at E p k1) w0) as [r0 w1] eqn:H0.
          apply m_read_inv in H0 as [[_ ->]|[-> _]]; reflexivity.
        * intros [c|c]; [auto|]. apply OC; [apply calm_de; assumption|]. intros w0. destruct (deserialize E n (Some (mkCtx i [])) (of_json c) w0) as [r0 w1] eqn:H0.
          unfold deserialize in H0. eapply de_statics. exact H0.
      + intros o. apply ok_bind'; try assumption; [apply ok_close'; assumption|auto]. }
  destruct (Hp _ Hbef) as (S1 & S2 & S3 & S4). rewrite H in S1, S2, S3, S4. cbn [snd] in *. split; [exact S1|]. apply (S4 (opened_ok p k1 w Hw)).
Qed.

(** ** Cleaning a key: its json file is gone if what was loaded has a [__remove__] *)
Lemma json_no_gitignore k : k ++ $".json" <> $".gitignore".
Proof. intros H. apply (f_equal (@rev ascii)) in H. rewrite rev_app_distr in H. discriminate. Qed.
Theorem clean_gone E p k1 : absolute (s_cwd E) -> absolute (o_base p) -> o_cluster p = true -> plain k1 -> In (s_retouch E) unattended ->
  forall n w w' o wl, well_formed (w_fs w) ->
  load E n (with_default_gitignore p) k1 (Some (OAtom ANone)) None w = (Ok o, wl) -> well_formed (w_fs wl) -> is_removable o = true ->
  repo_clean E n p k1 w = (Ok tt, w') ->
  file_at (w_fs w') (location (s_cwd E) (key_dir p k1) ++ [k1 ++ $".json"]) = None.
Proof.
  intros Hc Hb Hcl Hk1 Hun n w w' o wl Hw Hl Hwl Hrm H. unfold repo_clean in H. set (p1 := with_default_gitignore p) in *. unfold mbind at 1 in H.
  rewrite Hl, Hrm in H. cbn [negb] in H. unfold mbind at 1 in H. unfold open_context at 1 in H. cbn [c_mnt] in H.
  match type of H with _ ?x = _ => change x with (opened p1 k1 wl) in H end. change (o_cluster p1) with (o_cluster p) in H. rewrite Hcl in H. set (i := List.length (w_mounts wl)) in *. set (D0 := key_dir p k1) in *.
  assert (Hdir : absolute D0) by (apply key_dir_absolute; assumption).
  assert (HD1 : location (s_cwd E) D0 = location (s_cwd E) (fst (path_split D0)) ++ [k1]) by (apply key_parent; assumption).
  set (D := location (s_cwd E) D0) in *. set (l := D ++ [k1 ++ $".json"]) in *. set (U := location (s_cwd E) (fst (path_split D0))) in *.
  set (w0 := opened p1 k1 wl) in *.
  assert (Hok : mnt_ok i D0 w0) by (apply (opened_ok p1 k1 wl Hwl)).
  unfold mbind at 1 in H. destruct (remove E n (mkCtx i []) o w0) as [[x|e] w1] eqn:H1; [|discriminate].
  assert (Ain : forall q, inside q (location (s_cwd E) D0) -> inside q (location (s_cwd E) D0)) by auto.
  assert (Hok1 : mnt_ok i D0 w1).
  { destruct (on_rm E i D0 Hc Hdir Hun (fun q => inside q (location (s_cwd E) D0)) Ain n (mkCtx i []) o eq_refl w0 Hok) as (_ & _ & K). rewrite H1 in K. apply K. exact Hok. }
  unfold mbind at 1 in H. destruct (ctx_dir (mkCtx i []) w1) as [[dir|e] w2] eqn:H2; [|discriminate].
  assert (Hdv : dir = join2 D0 []) by (apply (ctx_dir_val p k1 i w1 dir w2 Hok1 H2)).
  assert (Hw2 : w2 = w1).
  { unfold ctx_dir, mbind, m_dir_of in H2. destruct (nth_error _ _); [|discriminate]. unfold ret in H2. congruence. }
  subst dir w2. cbn zeta in H.
  assert (Hl1 : os_loc (s_cwd E) (join2 (join2 D0 []) (k1 ++ $".json")) = l).
  { rewrite os_loc_location by assumption. rewrite location_snoc by (apply plain_clean, plain_json; assumption).
    rewrite location_join2_any. reflexivity. }
  assert (Hl2 : os_loc (s_cwd E) (join2 D0 []) = D) by (rewrite os_loc_location, location_join2_any by assumption; reflexivity).
  assert (Hpd : parent_dir (join2 D0 []) = fst (path_split D0)).
  { assert (Hpp : parent_dir D0 = fst (path_split D0)) by (apply key_parent_dir; assumption). rewrite <- Hpp. unfold parent_dir. f_equal. f_equal. unfold join2. cbn [isabs]. clear - D0. generalize D0. intros d0. destruct d0 as [|x r]; [reflexivity|]. destruct (ends_sep (x :: r)); [rewrite app_nil_r; reflexivity|apply rstrip_sep_snoc]. }
  rewrite Hl1, Hl2, Hpd in H. unfold mbind at 1 in H. destruct (op E _ _ w1) as [[y|e] w3] eqn:H3; [|discriminate].
  assert (Hgone : file_at (w_fs w3) l = None /\ mnt_ok i D0 w3).
  { apply op_cases in H3 as [(H3 & _)|H3]; [discriminate|]. cbn [logged w_fs] in H3. unfold file_at.
    destruct (lookup (w_fs w1) l) as [[c|]|] eqn:El; injection H3 as _ <-; cbn [set_fs logged w_fs]; try (rewrite El; split; [reflexivity|exact Hok1]).
    split; [|destruct Hok1 as [K1 K2]; split; [exact K1|apply delete_at_wf; exact K2]].
    fold (file_at (delete_at (w_fs w1) l) l). rewrite delete_at_file_at; [destruct (loc_eq_dec l l); congruence| |unfold l; destruct D; discriminate].
    intros q Hq Hpre. apply is_prefix_iff in Hpre as [r ->]. unfold file_at. rewrite lookup_app, El. destruct r; [rewrite app_nil_r in Hq; congruence|reflexivity]. }
  destruct Hgone as [Hg Hok3].
  unfold mbind at 1 in H. destruct (close_context E (mkCtx i []) w3) as [[z|e] w4] eqn:H4; [|discriminate].
  assert (Hg4 : file_at (w_fs w4) l = None).
  { unfold close_context in H4. apply op_cases in H4 as [(H4 & _)|H4]; [discriminate|]. cbn [logged w_mounts w_fs c_mnt] in H4.
    pose proof Hok3 as [(m & Hm & Hd & Ht) Hw3]. rewrite Hm in H4. destruct (mount_close (s_cwd E) (w_fs w3) m) as [fs|e] eqn:Em; [|discriminate].
    injection H4 as _ <-. cbn [set_fs w_fs]. destruct (close_files _ _ _ _ Hc Hw3 Em) as (d & Hdd & Hf). rewrite Hf; [exact Hg|]. intros Hx.
    destruct Hdd as [->| ->]; rewrite Hd in Hx; unfold l in Hx.
    - fold D in Hx. apply app_inv_head in Hx. injection Hx as Hx. exact (json_no_gitignore k1 Hx).
    - fold U in Hx. rewrite HD1, <- app_assoc in Hx. apply app_inv_head in Hx. discriminate. }
  apply op_cases in H as [(H & _)|H]; [discriminate|]. cbn [logged w_fs] in H. destruct (lookup (w_fs w4) D) as [[c|[|e es]]|] eqn:El; try discriminate.
  - unfold m_unignore in H. cbn [set_fs logged w_fs] in H.
    destruct (gitignore_gen (s_cwd E) _ (fst (path_split D0)) [] _) as [fs2|e] eqn:Eg; [|discriminate]. injection H as <-. cbn [set_fs w_fs].
    rewrite (gen_away (s_cwd E) Hc U _ _ _ _ _ eq_refl Eg).
    + etransitivity; [apply delete_leaf; [right; exact El|]|exact Hg4]. intros Hx. apply (f_equal (@List.length _)) in Hx. unfold l in Hx. rewrite app_length in Hx. cbn in Hx. lia.
    + unfold l. rewrite HD1, <- app_assoc. intros Hx. apply app_inv_head in Hx. discriminate.
  - injection H as <-. exact Hg4.
Qed.
