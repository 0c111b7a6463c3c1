(** Cleaning a key: C51. *)
From Coq Require Import List Ascii String Bool Arith ZArith Lia.
From Verif Require Import Base PosixModel FsModel PathModel SerialModel StoreModel StoreFrame StoreMount StoreSpec StoreLocal StorePlace
     StoreRecord StoreSave StoreExample SerialSpec SerialProof RoundSpec RoundProof KeepSpec CleanSpec CleanProof PathSpec MountSpec DirSpec PosixProof FsProof
     DirProof TargetProof MountProof HistoryProof PathFacts PropsStore PropsRepo PropsRound.
Import ListNotations.

Local Arguments str_eq_dec : simpl never.
Local Arguments atom_eq_dec : simpl never.

(** ** Removal leaves the options of mounts alone *)
Lemma rm_statics E n cx o w r w' : f_rm (depth E n) cx o w = (r, w') -> statics w' = statics w.
Proof.
  intros H. pose proof (depth_pres E (fun _ => True) (fun a b => statics b = statics a)) as Hd.
  assert (Hp : forall j q ch w, statics (snd (m_prepare E j q ch w)) = statics w).
  { intros j q ch w0. destruct (m_prepare E j q ch w0) as [r0 w1] eqn:E0. unfold m_prepare in E0. apply op_cases in E0 as [(_ & -> & _)|E0]; [reflexivity|].
    cbn [logged w_mounts] in E0. destruct (nth_error (w_mounts w0) j) as [m|] eqn:Em; [|injection E0 as <- <-; reflexivity].
    destruct (prepare _ _ _ _ _ _ _ _) as [r1 [[fs1 m1] inp1]] eqn:Ep. injection E0 as <- <-. cbn [snd]. unfold statics at 1. cbn [w_mounts].
    eapply statics_set; [exact Em|]. eapply prepare_static. exact Ep. }
  specialize (Hd (fun _ => eq_refl) (fun a b c H1 H2 => eq_trans H2 H1) (fun _ _ _ _ => I) (c_mnt cx) (fun _ => True) (fun _ => False)).
  destruct Hd with (n := n) as (_ & _ & H1); [intros c []| | | | | | |intros ? ? ? ? ? ? []|].
  - intros w0 _. reflexivity.
  - intros l w0 _. unfold m_read. destruct (op E _ _ w0) as [r0 w1] eqn:E0. apply op_cases in E0 as [(_ & -> & _)|E0]; [reflexivity|].
    cbn [logged w_fs] in E0. destruct (lookup (w_fs w0) l) as [[|]|]; injection E0 as _ <-; reflexivity.
  - intros j q w0 _. apply Hp.
  - intros q w0 _. apply Hp.
  - intros q w0 _. unfold m_remove. destruct (op E _ _ w0) as [r0 w1] eqn:E0. apply op_cases in E0 as [(_ & -> & _)|E0]; [reflexivity|].
    cbn [logged w_mounts] in E0. destruct (nth_error (w_mounts w0) (c_mnt cx)) as [m|] eqn:Em; [|injection E0 as <- <-; reflexivity].
    destruct (mount_remove _ _ _ _ _) as [r1 [fs1 m1]] eqn:Ep. injection E0 as <- <-. cbn [snd]. unfold statics at 1. cbn [w_mounts].
    apply (statics_set w0 (c_mnt cx) m m1); [exact Em|]. eapply mount_remove_static. exact Ep.
  - intros l c _ w0 _. unfold m_write. destruct (op E _ _ w0) as [r0 w1] eqn:E0. apply op_cases in E0 as [(_ & -> & _)|E0]; [reflexivity|].
    cbn [logged w_fs] in E0. destruct (write_file _ _ _); injection E0 as _ <-; reflexivity.
  - specialize (H1 cx o eq_refl w I). rewrite H in H1. exact H1.
Qed.

(** ** The .gitignore of the directory above *)
Lemma gen_over cwd fs d ig ck s : absolute cwd -> Forall one_line ig ->
  let G := location cwd d ++ [$".gitignore"] in
  file_at fs G = Some (Text s) ->
  exists fs', gitignore_gen cwd fs d ig ck = Ok fs' /\ (forall q, q <> G -> file_at fs' q = file_at fs q) /\ (forall q, is_dir fs' q = is_dir fs q) /\
    (file_at fs' G = None \/ exists s', file_at fs' G = Some (Text s') /\ forall p, In p (splitlines s') <->
      p = $".gitignore" \/ In p ig \/ (In p (splitlines s) /\ (ck p = true -> exists_at fs (requested cwd d p) = true))).
Proof.
  intros Hc Hig G Hs. assert (Hl : lookup fs G = Some (File (Text s))) by (unfold file_at in Hs; destruct (lookup fs G) as [[|]|]; congruence).
  assert (HG : os_loc cwd (join2 d ($".gitignore")) = G) by (rewrite requested_os, gitignore_loc by assumption; reflexivity).
  unfold gitignore_gen. rewrite HG, Hl. cbn [bind].
  set (orig := filter _ (splitlines s)). set (es := sorted_set (($".gitignore") :: ig ++ orig)).
  assert (Hin : forall p, In p es <-> p = $".gitignore" \/ In p ig \/ (In p (splitlines s) /\ (ck p = true -> exists_at fs (requested cwd d p) = true))).
  { intros p. unfold es. rewrite sorted_set_In. cbn [In]. rewrite in_app_iff. unfold orig. rewrite filter_In, orb_true_iff, negb_true_iff, requested_os by assumption.
    split; [intros [->|[H|[H1 H2]]]; [auto|auto|right; right; split; [assumption|]; intros Hk; destruct H2; congruence]|].
    intros [->|[H|[H1 H2]]]; [auto|auto|right; right; split; [assumption|]]. destruct (ck p); auto. }
  assert (Hone : Forall one_line es).
  { apply Forall_forall. intros p Hp. apply Hin in Hp as [->|[Hp|[Hp _]]].
    - intros c Hx. cbn in Hx. repeat destruct Hx as [<-|Hx]; try reflexivity. contradiction.
    - rewrite Forall_forall in Hig. auto.
    - pose proof (splitlines_lines s) as Hx. rewrite Forall_forall in Hx. auto. }
  assert (Hg : In ($".gitignore") es) by (apply Hin; auto).
  assert (Hlast : last es [] <> []) by (apply sorted_set_last; left; reflexivity).
  assert (Hwr : es <> [] -> exists fs', write_file fs G (Text (join_lines es)) = Ok fs' /\ (forall q, q <> G -> file_at fs' q = file_at fs q) /\ (forall q, is_dir fs' q = is_dir fs q) /\
    exists s', file_at fs' G = Some (Text s') /\ forall p, In p (splitlines s') <-> In p es).
  { intros Hne. destruct (write_over (location cwd d) fs ($".gitignore") _ (Text (join_lines es)) Hs) as [fs' Hf]. exists fs'. split; [exact Hf|].
    split; [intros q Hq; rewrite (write_file_lookup _ _ _ _ Hf); destruct (loc_eq_dec q _); [contradiction|reflexivity]|]. split; [apply (write_file_is_dir _ _ _ _ Hf)|].
    exists (join_lines es). split; [rewrite (write_file_lookup _ _ _ _ Hf); unfold G; destruct (loc_eq_dec _ _); congruence|]. rewrite splitlines_join by assumption. tauto. }
  destruct es as [|e1 [|e2 es']]; [contradiction| |].
  - unfold os_remove. rewrite Hl. destruct (delete_leaf fs G) as (D1 & D2 & D3); [left; eauto|].
    assert (HGn : G <> []) by (unfold G; destruct (location cwd d); discriminate). specialize (D3 HGn).
    eexists. split; [reflexivity|]. split; [exact D1|]. split.
    + intros q. destruct (loc_eq_dec q G) as [->|]; [|auto].
      unfold exists_at in D3. unfold is_dir. rewrite Hl. destruct (lookup (delete_at fs G) G); [discriminate|reflexivity].
    + left. unfold exists_at in D3. unfold file_at. destruct (lookup (delete_at fs G) G); [discriminate|reflexivity].
  - destruct Hwr as (fs' & W1 & W2 & W3 & s' & W4 & W5); [discriminate|]. exists fs'. repeat (split; [assumption|]). right. exists s'. split; [assumption|].
    intros p. rewrite W5. apply Hin.
Qed.
(** Closing the mount of a key over such a file.  The name of the key, or the json file of a key without a directory, stays
    listed. *)
Lemma close_over cwd fs m s n0 : absolute cwd -> well_formed fs -> m_gitignore m = true ->
  one_line n0 -> n0 <> [] -> n0 <> $".gitignore" ->
  (m_cluster m = true -> snd (path_split (m_dir m)) = n0) ->
  (m_cluster m = false -> In n0 (splitlines s) /\
     ((exists t, In t (m_removed m) /\ str_teq n0 t = true) -> exists c, file_at fs (requested cwd (m_dir m) n0) = Some c)) ->
  let G := ignore_loc cwd (m_cluster m) (m_dir m) in
  file_at fs G = Some (Text s) ->
  exists fs' s', mount_close cwd fs m = Ok fs' /\ file_at fs' G = Some (Text s') /\ (m_cluster m = false -> In n0 (splitlines s')) /\
    (forall q, q <> G -> file_at fs' q = file_at fs q) /\
    (forall q, is_dir fs' q = true <-> is_dir fs q = true /\ (inside q (location cwd (m_dir m)) -> q <> location cwd (m_dir m) -> holds_file fs q)).
Proof.
  intros Hc Hw Hg Hone Hnn Hn Hcl Hun G Hs. unfold mount_close. rewrite Hg. cbn [negb]. rewrite os_loc_location by assumption.
  set (fs1 := prune_directories fs (location cwd (m_dir m))).
  assert (F1 : forall q, file_at fs1 q = file_at fs q) by (intros q; apply prune_directories_file_at; assumption).
  assert (F2 : forall q, is_dir fs1 q = true <-> is_dir fs q = true /\ (inside q (location cwd (m_dir m)) -> q <> location cwd (m_dir m) -> holds_file fs q))
    by (intros q; apply prune_directories_is_dir; assumption).
  match goal with |- context [flat_map ?f ?l] => destruct (flat_map f l) as [|x r] end.
  { exists fs1, s. split; [reflexivity|]. split; [rewrite F1; assumption|]. split; [intros Hx; apply Hun; assumption|]. split; [intros q _; apply F1|exact F2]. }
  assert (Hgen : forall d ig, location cwd d ++ [$".gitignore"] = G ->
     In n0 ig \/ (In n0 (splitlines s) /\ ((exists t, In t (m_removed m) /\ str_teq n0 t = true) -> exists c, file_at fs1 (requested cwd d n0) = Some c)) ->
     exists fs' s', gitignore cwd fs1 d ig (m_removed m) = Ok fs' /\ file_at fs' G = Some (Text s') /\ In n0 (splitlines s') /\
       (forall q, q <> G -> file_at fs' q = file_at fs1 q) /\ (forall q, is_dir fs' q = is_dir fs1 q)).
  { clear - Hc Hs Hone Hnn Hn F1. intros d ig HG Hin. rewrite <- F1 in Hs.
    assert (Hl : lookup fs1 G = Some (File (Text s))) by (unfold file_at in Hs; destruct (lookup fs1 _) as [[|]|]; congruence).
    pose proof (gitignore_run cwd fs1 d ig (m_removed m) Hc) as E. cbn zeta in E. rewrite HG, Hl in E.
    assert (P1 : In ($".gitignore") (gi_entries cwd fs1 d ig (m_removed m))) by (apply gi_entries_In; [assumption|left; reflexivity]).
    assert (P2 : In n0 (gi_entries cwd fs1 d ig (m_removed m))).
    { apply gi_entries_In; [assumption|]. destruct Hin as [Hin|[H1 H2]]; [right; left; assumption|]. right. right. split.
      - exists s. split; [|assumption]. rewrite gitignore_loc, HG by assumption. exact Hs.
      - intros [(t & q & T1 & T2 & T3) Hno]. destruct H2 as [c Hf]; [exists t; split; [assumption|apply str_teq_iff; eauto]|].
        unfold file_at in Hf. unfold exists_at in Hno. destruct (lookup fs1 (requested cwd d n0)); discriminate. }
    destruct (gi_entries cwd fs1 d ig (m_removed m)) as [|e1 [|e2 es]]; [contradiction| |].
    - exfalso. destruct P1 as [->|[]]. destruct P2 as [P2|[]]. congruence.
    - rewrite <- HG in Hs. destruct (write_over (location cwd d) fs1 ($".gitignore") _ (Text (join_lines (e1 :: e2 :: es))) Hs) as [fs' Hf]. rewrite HG in Hf.
      exists fs', (join_lines (e1 :: e2 :: es)). split; [congruence|]. split; [rewrite (write_file_lookup _ _ _ _ Hf); destruct (loc_eq_dec G G); congruence|].
      split; [apply join_lines_has; assumption|]. split; [|apply (write_file_is_dir _ _ _ _ Hf)].
      intros q Hq. rewrite (write_file_lookup _ _ _ _ Hf). destruct (loc_eq_dec q G); [contradiction|reflexivity]. }
  unfold G, ignore_loc in *. destruct (m_cluster m) eqn:Ecl.
  - specialize (Hcl eq_refl). destruct (path_split (m_dir m)) as [d n]. cbn [fst snd] in *. subst n.
    destruct (Hgen d [n0] eq_refl) as (fs' & s' & G1 & G2 & G3 & G4 & G5); [left; left; reflexivity|].
    exists fs', s'. split; [exact G1|]. split; [assumption|]. split; [discriminate|]. split; [intros q Hq; rewrite G4, F1 by assumption; reflexivity|].
    intros q. rewrite G5. apply F2.
  - destruct (Hun eq_refl) as [U1 U2]. destruct (Hgen (m_dir m) (x :: r) eq_refl) as (fs' & s' & G1 & G2 & G3 & G4 & G5).
    { right. split; [assumption|]. intros Ht. destruct (U2 Ht) as [c Hf]. exists c. rewrite F1. exact Hf. }
    exists fs', s'. split; [exact G1|]. split; [assumption|]. split; [intros _; assumption|]. split; [intros q Hq; rewrite G4, F1 by assumption; reflexivity|].
    intros q. rewrite G5. apply F2.
Qed.
(** The save that first closed it listed it. *)
Lemma close_lists cwd fs m fs' s t n0 : absolute cwd -> well_formed fs -> m_gitignore m = true -> m_cluster m = false -> one_line n0 -> n0 <> [] ->
  In t (m_touched m) -> fspath t = Ok n0 -> (exists c, file_at fs (os_loc cwd (join2 (m_dir m) n0)) = Some c) ->
  mount_close cwd fs m = Ok fs' -> file_at fs' (ignore_loc cwd false (m_dir m)) = Some (Text s) -> In n0 (splitlines s).
Proof.
  intros Hc Hw Hg Hcl Hone Hnn Ht Hq [c Hf] H Hs. unfold mount_close in H. rewrite Hg, Hcl in H. cbn [negb] in H.
  set (fs1 := prune_directories fs (os_loc cwd (m_dir m))) in *.
  assert (Hf1 : exists_at fs1 (os_loc cwd (join2 (m_dir m) n0)) = true).
  { rewrite <- (prune_directories_file_at fs (os_loc cwd (m_dir m)) Hw) in Hf. fold fs1 in Hf. unfold file_at in Hf. unfold exists_at.
    destruct (lookup fs1 _); [reflexivity|discriminate]. }
  match type of H with context [flat_map ?f ?l] => set (ig := flat_map f l) in * end.
  assert (Hin : In n0 ig) by (apply in_flat_map; exists t; split; [assumption|]; rewrite Hq, Hf1; left; reflexivity).
  destruct ig as [|x r]; [contradiction|]. set (ig := x :: r) in *.
  pose proof (gitignore_run cwd fs1 (m_dir m) ig (m_removed m) Hc) as E. cbn zeta in E. unfold ignore_loc in Hs. set (G := location cwd (m_dir m) ++ [$".gitignore"]) in *.
  assert (P2 : In n0 (gi_entries cwd fs1 (m_dir m) ig (m_removed m))) by (apply gi_entries_In; [assumption|right; left; assumption]).
  assert (HGn : G <> []) by (unfold G; destruct (location cwd (m_dir m)); discriminate).
  assert (K : forall es, In n0 es -> write_file fs1 G (Text (join_lines es)) = Ok fs' -> In n0 (splitlines s)).
  { intros es He Hes. rewrite (write_file_lookup _ _ _ _ Hes) in Hs. destruct (loc_eq_dec G G); [|congruence]. injection Hs as <-. apply join_lines_has; assumption. }
  destruct (lookup fs1 G) as [[[s1|j]|es]|] eqn:El; try congruence; rewrite H in E;
    (destruct (gi_entries _ _ _ _ _) as [|e1 [|e2 es']]; [contradiction| |eapply K; [exact P2|symmetry; exact E]]);
    unfold os_remove in E; rewrite El in E; [|discriminate]. injection E as ->.
  destruct (delete_leaf fs1 G) as (_ & _ & D3); [left; eauto|]. specialize (D3 HGn). unfold exists_at in D3. unfold file_at in Hs. destruct (lookup (delete_at fs1 G) G); discriminate.
Qed.
(** What a removal has taken from the list of a mount is no longer there. *)
Definition taken (cwd : str) (w w' : world) : Prop :=
  (forall l, file_at (w_fs w) l = None -> file_at (w_fs w') l = None) /\
  forall j m', nth_error (w_mounts w') j = Some m' -> absolute (m_dir m') -> exists m, nth_error (w_mounts w) j = Some m /\ m_dir m' = m_dir m /\
    forall t, In t (m_removed m') -> In t (m_removed m) \/ exists r, rel_target t r /\ (location cwd (m_dir m') ++ r <> [] -> file_at (w_fs w') (location cwd (m_dir m') ++ r) = None).
Lemma taken_refl cwd w : taken cwd w w.
Proof. split; [auto|]. intros j m' H _. exists m'. auto. Qed.
Lemma taken_trans cwd a b c : taken cwd a b -> taken cwd b c -> taken cwd a c.
Proof.
  intros [H1 H2] [G1 G2]. split; [auto|]. intros j m3 H3 Ha. destruct (G2 j m3 H3 Ha) as (m2 & K1 & K2 & K3).
  destruct (H2 j m2 K1) as (m1 & L1 & L2 & L3); [congruence|]. exists m1. split; [assumption|]. split; [congruence|]. intros t Ht.
  destruct (K3 t Ht) as [Hx|Hx]; [|auto]. destruct (L3 t Hx) as [Hy|(r & R1 & R2)]; [auto|]. right. exists r. split; [assumption|]. intros Hn. apply G1. rewrite K2 in *. auto.
Qed.
Lemma depth_taken E n cx : absolute (s_cwd E) ->
  (forall x p w r w', f_de (depth E n) (Some cx) x p w = (r, w') -> taken (s_cwd E) w w') /\ (forall o w r w', f_rm (depth E n) cx o w = (r, w') -> taken (s_cwd E) w w').
Proof.
  intros Hcwd. pose proof (depth_pres E (fun _ => True) (fun a b => taken (s_cwd E) a b)) as Hd.
  assert (Hf : forall w w1, w_fs w1 = w_fs w -> w_mounts w1 = w_mounts w -> taken (s_cwd E) w w1).
  { intros a b F1 F2. split; [rewrite F1; auto|]. rewrite F2. intros j m' Hm _. exists m'. auto. }
  assert (Hp : forall j q ch w, taken (s_cwd E) w (snd (m_prepare E j q ch w))).
  { intros j q ch w0. destruct (m_prepare E j q ch w0) as [r0 w1] eqn:E0. unfold m_prepare in E0. apply op_cases in E0 as [(_ & -> & _)|E0]; [apply Hf; reflexivity|].
    cbn [logged w_mounts] in E0. destruct (nth_error (w_mounts w0) j) as [m|] eqn:Em; [|injection E0 as <- <-; apply Hf; reflexivity].
    destruct (prepare _ _ _ _ _ _ _ _) as [r1 [[fs1 m1] inp1]] eqn:Ep. injection E0 as <- <-. cbn [snd].
    assert (Hr : m_dir m1 = m_dir m /\ m_removed m1 = m_removed m).
    { clear - Ep. unfold prepare in Ep. repeat match type of Ep with context [match ?x with _ => _ end] => destruct x end; inversion Ep; subst; auto. }
    split; cbn [w_fs w_mounts].
    - intros l Hl. rewrite (prepare_files _ _ _ _ _ _ _ _ _ _ _ _ Ep). exact Hl.
    - intros i m' Hm _. rewrite nth_set_nth in Hm. destruct (Nat.eq_dec i j) as [->|]; [|exists m'; auto].
      rewrite Em in Hm. injection Hm as <-. exists m. destruct Hr as [-> ->]. auto. }
  specialize (Hd (taken_refl (s_cwd E)) (taken_trans (s_cwd E)) (fun _ _ _ _ => I) (c_mnt cx) (fun _ => False) (fun _ => False)).
  destruct Hd with (n := n) as (_ & H2 & H1); [intros c []| | | | | | |intros ? ? ? ? ? ? []|].
  - intros w0 _. apply Hf; reflexivity.
  - intros l w0 _. unfold m_read. destruct (op E _ _ w0) as [r0 w1] eqn:E0. apply op_cases in E0 as [(_ & -> & _)|E0]; [apply Hf; reflexivity|].
    cbn [logged w_fs] in E0. destruct (lookup (w_fs w0) l) as [[|]|]; injection E0 as _ <-; apply Hf; reflexivity.
  - intros j q w0 _. apply Hp.
  - intros q w0 _. apply Hp.
  - intros q w0 _. unfold m_remove. destruct (op E _ _ w0) as [r0 w1] eqn:E0. apply op_cases in E0 as [(_ & -> & _)|E0]; [apply Hf; reflexivity|].
    cbn [logged w_mounts] in E0. destruct (nth_error (w_mounts w0) (c_mnt cx)) as [m|] eqn:Em; [|injection E0 as <- <-; apply Hf; reflexivity].
    destruct (mount_remove _ _ _ _ _) as [r1 [fs1 m1]] eqn:Ep. injection E0 as <- <-. cbn [snd].
    assert (HF : (forall l, file_at (w_fs w0) l = None -> file_at fs1 l = None) /\ m_dir m1 = m_dir m /\ forall t, In t (m_removed m1) -> In t (m_removed m) \/
                   (normalize (s_cwd E) (m_dir m) q true = Ok t /\ (os_loc (s_cwd E) (join2 (m_dir m) q) <> [] -> file_at fs1 (os_loc (s_cwd E) (join2 (m_dir m) q)) = None))).
    { clear - Ep Hcwd. unfold mount_remove in Ep. destruct (untrack (s_cwd E) m q true) as [m2|] eqn:Eu; [|inversion Ep; subst; auto].
      assert (Hu : m_dir m2 = m_dir m /\ forall t, In t (m_removed m2) -> In t (m_removed m) \/ normalize (s_cwd E) (m_dir m) q true = Ok t).
      { unfold untrack in Eu. destruct (normalize _ _ _ _) as [t|e]; [|destruct e; inversion Eu; subst; auto].
        destruct (remove_first t (m_touched m)); inversion Eu; subst; [|auto]. cbn [m_dir m_removed]. split; [reflexivity|].
        intros t0 Ht. apply in_app_iff in Ht as [Ht|[<-|[]]]; auto. }
      destruct Hu as [U1 U2]. set (l := os_loc (s_cwd E) (join2 (m_dir m) q)) in *.
      assert (Hdel : (exists c, lookup (w_fs w0) l = Some (File c)) \/ lookup (w_fs w0) l = Some (Dir []) ->
                (forall l0, file_at (w_fs w0) l0 = None -> file_at (delete_at (w_fs w0) l) l0 = None) /\ (l <> [] -> file_at (delete_at (w_fs w0) l) l = None)).
      { intros Hl. destruct (delete_leaf _ _ Hl) as (D1 & _ & D3). 
        assert (D4 : l <> [] -> file_at (delete_at (w_fs w0) l) l = None).
        { intros Hn. specialize (D3 Hn). unfold exists_at in D3. unfold file_at. destruct (lookup (delete_at (w_fs w0) l) l); [discriminate|reflexivity]. }
        split; [|assumption]. intros l0 H0. destruct (loc_eq_dec l0 l) as [->|Hn]; [|rewrite D1 by assumption; assumption].
        destruct l as [|x y]; [exact H0|apply D4; discriminate]. }
      cbn [logged w_fs] in Ep. destruct (lookup (w_fs w0) l) as [[c|[|e es]]|] eqn:El; inversion Ep; subst fs1 m1.
      - destruct Hdel as [K1 K2]; [left; eauto|]. split; [assumption|]. split; [assumption|]. intros t Ht. destruct (U2 t Ht); auto.
      - destruct Hdel as [K1 K2]; [right; reflexivity|]. split; [assumption|]. split; [assumption|]. intros t Ht. destruct (U2 t Ht); auto.
      - split; [auto|]. split; [assumption|]. intros t Ht. destruct (U2 t Ht); [auto|]. right. split; [assumption|]. intros _. unfold file_at. rewrite El. reflexivity.
      - split; [auto|]. split; [assumption|]. intros t Ht. destruct (U2 t Ht); [auto|]. right. split; [assumption|]. intros _. unfold file_at. rewrite El. reflexivity. }
    destruct HF as (F1 & F2 & F3). split; cbn [w_fs w_mounts]; [exact F1|].
    intros j m' Hm Ha. rewrite nth_set_nth in Hm. destruct (Nat.eq_dec j (c_mnt cx)) as [->|]; [|exists m'; auto].
    rewrite Em in Hm. injection Hm as <-. exists m. split; [assumption|]. split; [assumption|]. intros t Ht. destruct (F3 t Ht) as [Hx|[Hx Hy]]; [auto|]. right.
    rewrite F2 in Ha. destruct (normalize_ok (s_cwd E) (m_dir m) q Hcwd Ha t Hx) as (rest & N1 & _ & N2). exists rest. split; [assumption|].
    rewrite F2, <- N1, <- os_loc_location by assumption. exact Hy.
  - intros l c [].
  - split.
    + intros x p w r w' H. specialize (H2 (Some cx) x p w I). rewrite H in H2. exact H2.
    + intros o w r w' H. specialize (H1 cx o eq_refl w I). rewrite H in H1. exact H1.
Qed.
Lemma still_listed cwd w w' i m' n0 c : taken cwd w w' -> nth_error (w_mounts w') i = Some m' -> absolute (m_dir m') ->
  (forall m, nth_error (w_mounts w) i = Some m -> m_removed m = []) -> plain n0 -> file_at (w_fs w') (location cwd (m_dir m') ++ [n0]) = Some c ->
  ~ exists t, In t (m_removed m') /\ str_teq n0 t = true.
Proof.
  intros [_ Ht] Hm Ha H0 Hn Hf (t & T1 & T2). destruct (Ht i m' Hm Ha) as (m & M1 & _ & M3). destruct (M3 t T1) as [Hx|(r & R1 & R2)].
  - rewrite (H0 m M1) in Hx. exact Hx.
  - apply str_teq_iff in T2 as (q & Q1 & Q2). pose proof R1 as (R3 & _ & R4 & _). rewrite R4 in Q1. injection Q1 as <-. rewrite normpath_relstr in Q2 by assumption.
    assert (Hr : r = [n0]).
    { assert (Hcl : Forall clean [n0]) by (constructor; [apply plain_clean; assumption|constructor]).
      rewrite <- (relstr_split r R3), Q2. exact (relstr_split [n0] Hcl). }
    subst r. rewrite R2 in Hf; [discriminate|]. destruct (location cwd (m_dir m')); discriminate.
Qed.
Lemma rstrip_sep_snoc s : rstrip_sep (s ++ [sep]) = rstrip_sep s.
Proof. induction s as [|x r IH]; [reflexivity|]. cbn [app rstrip_sep]. rewrite IH. reflexivity. Qed.
Lemma key_parent_dir p k : plain k -> o_cluster p = true -> parent_dir (key_dir p k) = fst (path_split (key_dir p k)).
Proof.
  intros Hk Hc. unfold parent_dir. rewrite rstrip_sep_id; [reflexivity|]. unfold key_dir. rewrite Hc. unfold mount_dir, joinN. cbn [fold_left].
  destruct Hk as (H1 & _ & _ & H4).
  assert (He : forall a b, b <> [] -> ends_sep b = false -> ends_sep (join2 a b) = false).
  { intros a b Hb He. unfold join2. destruct (isabs b); [assumption|]. destruct a as [|x r]; [assumption|].
    destruct (ends_sep (x :: r)).
    - clear - He Hb. induction (x :: r) as [|y l IH]; [assumption|]. cbn [app]. destruct (l ++ b) eqn:El; [destruct l; [cbn in El; congruence|discriminate]|]. exact IH.
    - assert (H : forall l, ends_sep (l ++ b) = false).
      { clear - He Hb. induction l as [|y l IH]; [assumption|]. cbn [app]. destruct (l ++ b) eqn:El; [destruct l; [cbn in El; congruence|discriminate]|]. exact IH. }
      change (sep :: b) with ([sep] ++ b). rewrite app_assoc. apply H. }
  assert (Hke : ends_sep k = false).
  { clear - H4. induction k as [|x r IH]; [reflexivity|]. cbn. destruct r as [|y r].
    - destruct (ascii_dec x sep) as [->|]; [exfalso; apply H4; left; reflexivity|]. reflexivity.
    - apply IH. intros Hx. apply H4. right. assumption. }
  assert (Hne : forall a b, b <> [] -> join2 a b <> []).
  { intros a b Hb. unfold join2. destruct (isabs b); [assumption|]. destruct a as [|x r]; [assumption|]. destruct (ends_sep (x :: r)); discriminate. }
  apply He; [apply Hne; assumption|]. apply He; assumption.
Qed.

(** ** Values without [__remove__] *)
Lemma keyed_no_type (d : list (atom * obj)) (ys : list (obj * pser)) : (forall k x, In (k, x) d -> exists s, k = AStr s /\ s <> SER_TYPE) ->
  assoc_a (AStr SER_TYPE) (map (fun kx : atom * (obj * pser) => (fst kx, snd (snd kx))) (combine (map fst d) ys)) = None.
Proof.
  intros Hi. apply SerialProof.assoc_a_none. rewrite map_map. cbn [fst]. intros Hx. apply in_map_iff in Hx as ([a y] & Hx & Hy). cbn [fst] in Hx. subst a.
  apply in_combine_l in Hy. apply in_map_iff in Hy as ([k v] & Hk & Hy). cbn [fst] in Hk. subst k. destruct (Hi _ _ Hy) as (s & H1 & H2). congruence.
Qed.
Lemma plain_root E E2 n m cx cx2 o w o' p w' w1 o2 w2 : built E o -> cleanable E o = false ->
  f_ser (depth E n) (Some cx) false o w = (Ok (o', p), w') -> f_de (depth E2 m) cx2 None p w1 = (Ok o2, w2) -> is_removable o2 = false.
Proof.
  intros Hb Hcl H G. destruct n as [|n]; [discriminate|]. destruct m as [|m]; [discriminate|]. cbn [depth f_ser f_de] in H, G.
  inversion Hb as [a|l Hi|d Hi Hn| | | | |]; subst; try discriminate.
  - cbn in H. injection H as <- <- <-. destruct a; cbn in G; injection G as <- <-; reflexivity.
  - cbn [ser_body] in H. unfold ser_list in H. apply mbind_ok in H as (ys & wx & H1 & H). cbn zeta in H. unfold ret in H. cbn [has_storable] in H. cbn [cleanable] in Hcl. rewrite Hcl in H.
    injection H as <- <- <-. cbn [de_body] in G. apply mbind_ok in G as (o3 & wy & G1 & G2). apply mbind_ok in G1 as (vs & wz & _ & G1). unfold ret in G1. injection G1 as <- <-.
    unfold ret in G2. injection G2 as <- <-. reflexivity.
  - cbn [ser_body] in H. unfold ser_dict in H. apply mbind_ok in H as (xs & wx & H1 & H). apply mapM_keyed_ok in H1 as (ys & _ & -> & _).
    cbn zeta in H. unfold ret in H. cbn [has_storable] in H. cbn [cleanable] in Hcl. rewrite Hcl in H.
    injection H as <- <- <-. cbn [de_body] in G. rewrite keyed_no_type in G by (intros k x Hx; apply (Hi k x Hx)).
    apply mbind_ok in G as (o3 & wy & G1 & G2). apply mbind_ok in G1 as (vs & wz & _ & G1). unfold ret in G1. injection G1 as <- <-.
    unfold ret in G2. injection G2 as <- <-. reflexivity.
Qed.

(** ** C51 *)
Lemma clean_after_save E E2 n m p k o w o' j w' w2 :
  absolute (s_cwd E) -> absolute (o_base p) -> same_code E E2 -> registered_classes E -> ordinary_uuids E -> faithful_methods E ->
  s_limit E2 = None -> s_retouch E = $"auto" \/ s_retouch E = $"quit" -> s_validate E = true ->
  plain k -> one_line k -> k <> $".gitignore" -> o_gitignore p = true ->
  well_formed (w_fs w) -> built E o -> n < m ->
  save E n p k o w = (Ok (o', j), w') -> (forall l, own_ignore E p k l -> ~ happened w w' (EvWrite l)) -> w_fs w2 = w_fs w' ->
  let dir := location (s_cwd E) (key_dir p k) in
  let ignore := (if o_cluster p then removelast dir else dir) ++ [$".gitignore"] in
  (cleanable E o = false -> exists w3, repo_clean E2 m p k w2 = (Ok tt, w3) /\ forall l, l <> ignore -> file_at (w_fs w3) l = file_at (w_fs w2) l) /\
  (cleanable E o = true -> recorded E o -> exists w3, repo_clean E2 m p k w2 = (Ok tt, w3) /\
    (forall l, happened w w' (EvWrite l) -> file_at (w_fs w3) l = None) /\
    (forall l, ~ happened w w' (EvWrite l) -> l <> ignore -> file_at (w_fs w3) l = file_at (w_fs w2) l) /\
    (o_cluster p = true -> (forall l, inside l dir -> file_at (w_fs w3) l = None) ->
       exists_at (w_fs w3) dir = false /\ forall s, file_at (w_fs w3) ignore = Some (Text s) -> ~ In k (splitlines s)) /\
    (o_cluster p = false -> forall s, file_at (w_fs w3) ignore = Some (Text s) -> ~ In (k ++ $".json") (splitlines s))).
Proof.
  intros Hc Hb Hsame Hreg Huid Hfai Hlim Hret Hval Hk Hone Hgi Hpg Hw Hbu Hnm H Hcl Hw2 dir ignore.
  assert (Hun : In (s_retouch E) unattended) by (destruct Hret as [-> | ->]; [left|right; left]; reflexivity).
  pose proof (save_inv_log E Hc Hun p k Hb n o w o' j w' [k]) as HS. cbn zeta in HS. cbn [removelast last app] in HS.
  destruct HS as (o1 & q & u & wa & wb & fs1 & fs2 & mt & Ho1 & Hg & Hoka & Hser & Hokb & Hf1 & Hf2 & Hmt & Hmt' & Hmd & Hclose & Hlogw);
    [discriminate|constructor; [assumption|constructor]|reflexivity|assumption|assumption|].
  set (i := List.length (w_mounts w)) in *. set (D0 := key_dir p k) in *.
  assert (Hdir : absolute D0) by (apply key_dir_absolute; assumption).
  set (D := location (s_cwd E) D0) in *. change dir with D in *. set (l := D ++ [k ++ $".json"]) in *.
  assert (Hcwd2 : s_cwd E2 = s_cwd E) by apply Hsame.
  assert (Hc2 : absolute (s_cwd E2)) by (rewrite Hcwd2; assumption).
  destruct (gave_claims E i D0 Hret q _ u [k ++ $".json"] [k ++ $".json"] wa Hg (opened_ok p k w Hw)) as (Gc & Gn & _ & HD).
  assert (Hla : claimed E i D0 wa l) by (apply Gc; right; reflexivity).
  assert (Hnone : forall l0, ~ claimed E i D0 (opened p k w) l0).
  { intros l0 (m1 & u1 & r1 & C1 & C2 & _). unfold opened in C1. cbn [w_mounts] in C1. rewrite nth_error_app2, Nat.sub_diag in C1 by (unfold i; lia).
    cbn in C1. injection C1 as <-. contradiction. }
  assert (Hloga : w_log wa = EvPrepare i q :: w_log w) by (destruct Hg as (m1 & t1 & fs' & _ & _ & _ & _ & _ & -> & _); reflexivity).
  assert (Hbu1 : built E o1).
  { destruct Ho1 as [[-> _]|(-> & _)]; [assumption|]. apply b_rec; [assumption|apply auto_ordinary; assumption]. }
  assert (Hrm1 : recorded E o -> recorded E o1 /\ (cleanable E o = true -> removes E o1 = true)).
  { intros Hrec. destruct Ho1 as [[-> Hso]|(-> & _ & Hsto)].
    - split; [assumption|]. intros Hcln. destruct o; try reflexivity; try discriminate Hcln; try discriminate Hso; try exact Hcln; inversion Hbu.
    - split; [constructor; assumption|reflexivity]. }
  pose proof (ser_saved E E2 i D0 Hc Hdir Hret Hval Hreg Huid Hfai Hsame Hlim n o1 false [] (mkCtx i []) wa o' j wb Hbu1) as HSv.
  destruct HSv as (Sgg & _ & Sj & _ & tr & _ & SL); [discriminate|apply sctx_top|assumption|exact Hser|]. cbn iota in SL.
  pose proof Sgg as [Sg (evs0 & Se0 & Sf)].
  set (g := fresh E i D0 wa wb) in *.
  assert (Hst : m_gitignore mt = true /\ m_cluster mt = o_cluster p).
  { enough (m_gitignore mt = o_gitignore p /\ m_cluster mt = o_cluster p) by (rewrite Hpg in *; assumption). pose proof (on_ser E i D0 Hc Hdir Hun (fun _ => True) (fun _ _ => I) n (mkCtx i []) [] o1 (sctx_top i) wa Hoka) as Hons.
    rewrite Hser in Hons. destruct Hons as (_ & Hons & _). cbn [snd] in Hons.
    pose proof (statics_nth _ _ _ Hmt) as Hn. rewrite Hons in Hn. destruct Hg as (mm & touched & fs' & G1 & _ & _ & _ & _ & -> & _).
    unfold opened in G1. cbn [w_mounts] in G1. rewrite nth_error_app2, Nat.sub_diag in G1 by lia. injection G1 as <-.
    unfold statics in Hn. cbn [w_mounts] in Hn. rewrite nth_error_map, nth_set_nth in Hn. destruct (Nat.eq_dec i i); [|congruence].
    unfold opened in Hn. cbn [w_mounts] in Hn. rewrite nth_error_app2, Nat.sub_diag in Hn by (unfold i; lia). cbn in Hn. injection Hn as _ Hn1 Hn2. auto. }
  destruct Hst as [Hst1 Hst2].
  assert (Hwf2 : well_formed fs2) by (destruct Hokb as [_ Hwb]; exact (write_file_wf _ _ _ _ Hf2 (write_file_wf _ _ _ _ Hf1 Hwb))).
  assert (Hwf' : well_formed (w_fs w')) by (eapply mount_close_wf; eassumption).
  set (G := ignore_loc (s_cwd E) (o_cluster p) D0).
  assert (HDk : o_cluster p = true -> D = location (s_cwd E) (fst (path_split D0)) ++ [k]) by (intros Hpc; apply key_parent; assumption).
  assert (HG : ignore = G).
  { unfold ignore, G, ignore_loc. destruct (o_cluster p); [rewrite HDk, removelast_last by reflexivity; reflexivity|reflexivity]. }
  assert (Hks : o_cluster p = true -> snd (path_split D0) = k) by (intros Hpc; apply key_split; assumption).
  assert (Hlg : w_log w' = (EvClose i :: EvWrite l :: EvWrite l :: evs0 ++ [EvPrepare i q]) ++ w_log w).
  { rewrite Hlogw, Se0, Hloga. cbn [app]. rewrite <- app_assoc. reflexivity. }
  assert (Hne : forall r, happened w w' (EvWrite (D ++ r)) -> D ++ r <> G).
  { intros r Hh Hx. apply own_ignore_loc in Hx; try assumption. exact (Hcl _ Hx Hh). }
  assert (Hnc : o_cluster p = true -> forall r, D ++ r <> G).
  { intros Hpc r Hx. apply own_ignore_loc in Hx; try assumption. destruct Hx as (_ & Hx & _). congruence. }
  assert (HlG : l <> G) by (apply Hne; eexists; split; [exact Hlg|right; left; reflexivity]).
  assert (Hfill : forall l0, claimed E i D0 wb l0 -> ~ claimed E i D0 wa l0 -> l0 <> G).
  { intros l0 C1 C2. destruct (Sf _ C1) as [C4|C4]; [contradiction|]. destruct C1 as (m1 & u1 & r1 & _ & _ & _ & ->). apply Hne.
    eexists. split; [exact Hlg|]. do 3 right. apply in_or_app. left. exact C4. }
  assert (HgG : forall l0 c0, g l0 c0 -> l0 <> G) by (intros l0 c0 (C1 & C2 & _); auto).
  set (n0 := if o_cluster p then k else k ++ $".json").
  assert (Hone0 : one_line n0).
  { unfold n0. destruct (o_cluster p); [assumption|]. intros c Hx. apply in_app_iff in Hx as [Hx|Hx]; [auto|]. cbn in Hx. repeat destruct Hx as [<-|Hx]; try reflexivity. contradiction. }
  assert (Hn0 : n0 <> []) by (unfold n0; destruct (o_cluster p); [apply Hk|intros Hx; apply app_eq_nil in Hx as [_ Hx]; discriminate]).
  assert (Hn0g : n0 <> $".gitignore") by (unfold n0; destruct (o_cluster p); [assumption|apply json_not_ignore]).
  assert (Hf2l : forall q0, file_at fs2 q0 = if loc_eq_dec q0 l then Some (Json (to_json (s_float E) j)) else file_at (w_fs wb) q0).
  { intros q0. rewrite (write_file_lookup _ _ _ _ Hf2). destruct (loc_eq_dec q0 l); [reflexivity|].
    rewrite (write_file_lookup _ _ _ _ Hf1). destruct (loc_eq_dec q0 l); congruence. }
  assert (Haway : forall q0, q0 <> G -> file_at (w_fs w') q0 = file_at fs2 q0).
  { intros q0 Hq. apply (close_away _ _ _ _ Hc Hwf2 Hclose). intros _. rewrite Hmd, Hst2. exact Hq. }
  assert (Hlj : file_at (w_fs w') l = Some (Json (to_json (s_float E) j))).
  { rewrite Haway by exact HlG. rewrite Hf2l. destruct (loc_eq_dec l l); congruence. }
  assert (Hgl : forall c0, ~ g l c0) by (intros c0 (_ & C2 & _); contradiction).
  assert (Hgw : forall l0 c0, g l0 c0 -> file_at (w_fs w') l0 = Some c0).
  { intros l0 c0 H0. rewrite Haway by exact (HgG l0 c0 H0). rewrite Hf2l. destruct (loc_eq_dec l0 l) as [Hx|_]; [exfalso; rewrite Hx in H0; exact (Hgl c0 H0)|apply H0]. }
  assert (Hign : exists s, file_at (w_fs w') G = Some (Text s) /\ (o_cluster p = false -> In n0 (splitlines s))).
  { pose proof (Sg l Hla) as [(m1 & u1 & r1 & C1 & C2 & C3 & C4) _]. rewrite Hmt in C1. injection C1 as <-.
    pose proof C3 as (_ & _ & C5 & _). unfold G. rewrite <- Hmd, <- Hst2.
    assert (Hr1 : r1 = [k ++ $".json"]) by (symmetry; eapply app_inv_head; exact C4).
    assert (Hex : exists c, file_at fs2 (os_loc (s_cwd E) (join2 (m_dir mt) (relstr r1))) = Some c).
    { exists (Json (to_json (s_float E) j)). destruct (rel_target_location (s_cwd E) D0 u1 r1 (relstr r1) Hdir C3 C5) as (_ & Hrl & _).
      assert (Hol : os_loc (s_cwd E) (join2 (m_dir mt) (relstr r1)) = l) by (rewrite os_loc_location, Hmd, Hrl by assumption; symmetry; exact C4).
      rewrite Hol, Hf2l. destruct (loc_eq_dec l l); congruence. }
    destruct (close_leaves (s_cwd E) fs2 mt (w_fs w') u1 (relstr r1)) as (s & Hs & _); try assumption.
    - rewrite Hmd, Hst2. destruct (o_cluster p) eqn:Ec; [rewrite Hks by reflexivity; assumption|]. rewrite Hr1. apply json_not_ignore.
    - exists s. split; [assumption|]. rewrite Hst2. intros Hpc. unfold n0. rewrite Hpc.
      assert (Hrs : relstr r1 = k ++ $".json") by (rewrite Hr1; reflexivity).
      eapply (close_lists (s_cwd E) fs2 mt (w_fs w') s u1); try eassumption; try congruence.
      + unfold n0 in Hone0. rewrite Hpc in Hone0. exact Hone0.
      + unfold n0 in Hn0. rewrite Hpc in Hn0. exact Hn0.
      + rewrite <- Hrs. assumption.
  }
  destruct Hign as (s0 & Hs0 & Hin0).
  (* loading *)
  set (i2 := List.length (w_mounts w2)).
  set (w1 := opened p k w2).
  assert (Hjat : json_at E2 p k = l).
  { rewrite (json_at_slash E2 p k [k]); [|reflexivity|discriminate|constructor; [assumption|constructor]]. rewrite Hcwd2. reflexivity. }
  assert (Hlk : lookup (w_fs w2) l = Some (File (Json (to_json (s_float E) j)))).
  { rewrite Hw2. unfold file_at in Hlj. destruct (lookup (w_fs w') l) as [[|]|]; congruence. }
  set (wl := logged (EvRead l) (logged (EvStat l) w1)).
  assert (Hok1 : mnt_ok i2 D0 wl) by (apply (opened_ok p k w2); rewrite Hw2; assumption).
  assert (Hhas : has g wl) by (intros l0 c0 H0; cbn; rewrite Hw2; auto).
  destruct (SL m i2 (mkCtx i2 []) wl) as (o2 & wd & L1 & L2 & _); [lia|apply sctx_top|assumption|exact Hhas|].
  pose proof (de_statics _ _ _ _ _ _ _ _ L1) as Hsd.
  destruct L2 as [L2 L2'].
  assert (Hokd : mnt_ok i2 D0 wd) by (apply L2'; assumption).
  pose proof Hokd as [(md & Hmd1 & Hmd2 & Hmd3) Hwfd].
  assert (Hsm : m_gitignore md = true /\ m_cluster md = o_cluster p).
  { enough (m_gitignore md = o_gitignore p /\ m_cluster md = o_cluster p) by (rewrite Hpg in *; assumption). pose proof (statics_nth _ _ _ Hmd1) as Hn. rewrite Hsd in Hn. unfold statics, wl, w1, opened in Hn. cbn [logged w_mounts] in Hn.
    rewrite nth_error_map, nth_error_app2, Nat.sub_diag in Hn by (unfold i2; lia). cbn in Hn. injection Hn as _ Hn1 Hn2. auto. }
  destruct Hsm as [Hsm1 Hsm2].
  assert (Hdl : file_at (w_fs wd) l = Some (Json (to_json (s_float E) j))) by (rewrite L2; cbn; rewrite Hw2; exact Hlj).
  destruct (close_over (s_cwd E2) (w_fs wd) md s0 n0 Hc2 Hwfd Hsm1 Hone0 Hn0 Hn0g) as (fs3 & s3 & Hcd & Hs3 & Hin3 & Hfs3 & _).
  { rewrite Hsm2, Hmd2. intros Hpc. unfold n0. rewrite Hpc. apply Hks. assumption. }
  { rewrite Hsm2. intros Hpc. split; [auto|]. intros Hx. exfalso. revert Hx. unfold n0. rewrite Hpc.
    eapply (still_listed (s_cwd E2)); [destruct (depth_taken E2 m (mkCtx i2 []) Hc2) as [Ht _]; exact (Ht _ _ _ _ _ L1)|exact Hmd1|rewrite Hmd2; assumption| |apply plain_json; assumption|rewrite Hmd2, Hcwd2; exact Hdl].
    intros m1 Hm1. unfold wl, w1, opened in Hm1. cbn [logged w_mounts] in Hm1. rewrite nth_error_app2, Nat.sub_diag in Hm1 by (unfold i2; lia). cbn in Hm1. injection Hm1 as <-. reflexivity. }
  { rewrite Hsm2, Hmd2, Hcwd2, L2; cbn; rewrite Hw2; assumption. }
  rewrite Hsm2, Hmd2, Hcwd2 in Hs3, Hfs3. rewrite Hsm2 in Hin3. fold G in Hs3, Hfs3.
  set (w3 := mkWorld fs3 (w_mounts wd) (w_inputs wd) (w_uuid wd) (EvClose i2 :: w_log wd)).
  assert (Hf3 : forall q0, q0 <> G -> file_at (w_fs w3) q0 = file_at (w_fs w2) q0).
  { intros q0 Hq. cbn [w3 w_fs]. rewrite Hfs3 by assumption. rewrite L2. reflexivity. }
  assert (Hwf3 : well_formed (w_fs w3)) by (eapply mount_close_wf; eassumption).
  assert (Hload : load E2 m p k (Some (OAtom ANone)) None w2 = (Ok o2, w3)).
  { rewrite load_eq by assumption. cbn zeta. fold i2. rewrite Hjat. change (mkWorld _ _ _ _ _) with w1.
    rewrite mbind_run. unfold m_exists. rewrite op_free by assumption. cbn [logged w_fs].
    assert (Hex : exists_at (w_fs w1) l = true) by (unfold exists_at; change (w_fs w1) with (w_fs w2); rewrite Hlk; reflexivity).
    rewrite Hex. rewrite mbind_run, mbind_run. unfold m_read. rewrite op_free by assumption. cbn [logged w_fs].
    change (w_fs w1) with (w_fs w2). rewrite Hlk.
    change (of_json (to_json (s_float E) j)) with (through_json (s_float E) j). rewrite through_json_ready by assumption.
    match goal with |- context [deserialize E2 m (Some (mkCtx i2 [])) j ?x] => change x with wl end. unfold deserialize. rewrite L1. rewrite mbind_run. unfold close_context. rewrite op_free by assumption.
    cbn [logged c_mnt w_mounts w_fs]. rewrite Hmd1, Hcd. reflexivity. }
  assert (Hpp : with_default_gitignore p = p) by (clear - Hpg; destruct p; cbn in Hpg; subst; reflexivity).
  split.
  { intros Hcln. assert (Hrm2 : is_removable o2 = false).
    { destruct Ho1 as [[-> _]|(-> & _ & Hsto)]; [eapply plain_root; eassumption|]. destruct o; discriminate. }
    exists w3. split; [|rewrite HG; exact Hf3]. unfold repo_clean. cbn zeta. rewrite Hpp, mbind_run, Hload, Hrm2. reflexivity. }
  intros Hcln Hrec. destruct (Hrm1 Hrec) as [Hrec1 Hrmv]. specialize (Hrmv Hcln). clear Hrm1.
  pose proof (ser_csaved E E2 i D0 Hc Hdir Hret Hval Hreg Huid Hfai Hsame Hlim n o1 false [] (mkCtx i []) wa o' j wb Hbu1 Hrec1) as HSv.
  destruct HSv as (_ & _ & (evs & Se & Sw) & SC); [discriminate|apply sctx_top|assumption|exact Hser|]. cbn iota in SC. rewrite Hrmv in SC. fold g in SC.
  assert (Hwrote : forall l0, happened w w' (EvWrite l0) <-> l0 = l \/ (claimed E i D0 wb l0 /\ ~ claimed E i D0 wa l0)).
  { intros l0. rewrite <- Sw. assert (He : w_log w' = (EvClose i :: EvWrite l :: EvWrite l :: evs ++ [EvPrepare i q]) ++ w_log w).
    { rewrite Hlogw, Se, Hloga. cbn [app]. rewrite <- app_assoc. reflexivity. }
    split.
    - intros (evs' & E1 & E2'). rewrite He in E1. apply app_inv_tail in E1. subst evs'. cbn [In] in E2'. rewrite in_app_iff in E2'. cbn [In] in E2'.
      destruct E2' as [Hx|[Hx|[Hx|[Hx|[Hx|[]]]]]]; try discriminate; auto; left; congruence.
    - intros Hx. eexists. split; [exact He|]. cbn [In]. rewrite in_app_iff. destruct Hx as [->|Hx]; auto. }
  destruct (SC m i2 (mkCtx i2 []) wl) as (o2' & wd' & L1' & _ & L3 & [_ Hrm2] & _); [lia|apply sctx_top|assumption|exact Hhas|].
  rewrite L1 in L1'. injection L1' as <- <-. specialize (Hrm2 eq_refl).
  (* removing *)
  set (i3 := List.length (w_mounts w3)).
  set (w4 := opened p k w3).
  assert (Hok4 : mnt_ok i3 D0 w4) by (apply (opened_ok p k w3); assumption).
  assert (Hok4' : mnt_ok i2 D0 w4).
  { split; [|exact Hwf3]. exists md. split; [|auto]. unfold w4, opened. cbn [w_mounts]. rewrite nth_error_app1; [exact Hmd1|]. apply nth_error_Some. cbn. congruence. }
  destruct (L3 m i3 (mkCtx i3 []) w4 Hnm) as (o3 & w5 & R1 & (R2 & R3 & R4));
    [apply sctx_rctx, sctx_top|assumption|assumption| |].
  { intros l0 c0 H0. change (w_fs w4) with (w_fs w3). rewrite Hf3 by exact (HgG l0 c0 H0). rewrite Hw2. auto. }
  assert (Hok5 : mnt_ok i3 D0 w5) by (apply R4; assumption).
  pose proof (rm_statics _ _ _ _ _ _ _ R1) as Hsr.
  pose proof Hok5 as [(me & Hme1 & Hme2 & _) Hwf5].
  assert (Hse : m_gitignore me = true /\ m_cluster me = o_cluster p).
  { enough (m_gitignore me = o_gitignore p /\ m_cluster me = o_cluster p) by (rewrite Hpg in *; assumption). pose proof (statics_nth _ _ _ Hme1) as Hn. rewrite Hsr in Hn. unfold statics, w4, opened in Hn. cbn [w_mounts] in Hn.
    rewrite nth_error_map, nth_error_app2, Nat.sub_diag in Hn by (unfold i3; lia). cbn in Hn. injection Hn as _ Hn1 Hn2. auto. }
  destruct Hse as [Hse1 Hse2].
  assert (H5l : file_at (w_fs w5) l = Some (Json (to_json (s_float E) j))).
  { rewrite R3 by exact Hgl. change (w_fs w4) with (w_fs w3). rewrite Hf3 by exact HlG. rewrite Hw2. assumption. }
  assert (H5k : lookup (w_fs w5) l = Some (File (Json (to_json (s_float E) j)))) by (unfold file_at in H5l; destruct (lookup (w_fs w5) l) as [[|]|]; congruence).
  destruct (delete_leaf (w_fs w5) l) as (X1 & X2 & X3); [left; eauto|].
  assert (Hln : l <> []) by (unfold l; destruct D; discriminate). specialize (X3 Hln).
  set (fs6 := delete_at (w_fs w5) l) in *.
  assert (H6G : file_at fs6 G = Some (Text s3)).
  { rewrite X1 by (intros Hx; exact (HlG (eq_sym Hx))). rewrite R3; [exact Hs3|]. intros c0 H0. exact (HgG _ _ H0 eq_refl). }
  assert (Hwf6 : well_formed fs6) by (apply delete_at_wf; assumption).
  destruct (close_over (s_cwd E2) fs6 me s3 n0 Hc2 Hwf6 Hse1 Hone0 Hn0 Hn0g) as (fs7 & s7 & Hc7 & Hs7 & Hin7 & Hfs7 & Hd7).
  { rewrite Hse2, Hme2. intros Hpc. unfold n0. rewrite Hpc. apply Hks. assumption. }
  { rewrite Hse2. intros Hpc. split; [auto|]. intros Hx. exfalso. revert Hx. unfold n0. rewrite Hpc.
    eapply (still_listed (s_cwd E2)); [destruct (depth_taken E2 m (mkCtx i3 []) Hc2) as [_ Ht]; exact (Ht _ _ _ _ R1)|exact Hme1|rewrite Hme2; assumption| |apply plain_json; assumption|rewrite Hme2, Hcwd2; exact H5l].
    intros m1 Hm1. unfold w4, opened in Hm1. cbn [w_mounts] in Hm1. rewrite nth_error_app2, Nat.sub_diag in Hm1 by (unfold i3; lia). cbn in Hm1. injection Hm1 as <-. reflexivity. }
  { rewrite Hse2, Hme2, Hcwd2; assumption. }
  rewrite Hse2, Hme2, Hcwd2 in Hs7, Hfs7. rewrite Hme2, Hcwd2 in Hd7. fold G in Hs7, Hfs7. fold D in Hd7.
  assert (Hwf7 : well_formed fs7) by (eapply mount_close_wf; eassumption).
  assert (HDdir : is_dir fs7 D = true).
  { apply Hd7. split; [|congruence]. rewrite X2 by (unfold l; intros Hx; apply (f_equal (@List.length _)) in Hx; rewrite app_length in Hx; cbn in Hx; lia).
    unfold l in H5k. rewrite lookup_app in H5k. unfold is_dir. destruct (lookup (w_fs w5) D) as [[|]|]; [discriminate|reflexivity|discriminate]. }
  assert (Hfile7 : forall l0, l0 <> G -> file_at fs7 l0 = if loc_eq_dec l0 l then None else file_at (w_fs w5) l0).
  { intros l0 Hl0. rewrite Hfs7 by assumption. destruct (loc_eq_dec l0 l) as [->|Hx]; [|apply X1; assumption].
    unfold exists_at in X3. unfold file_at. destruct (lookup fs6 l); [discriminate|reflexivity]. }
  assert (Hgone : forall l0, happened w w' (EvWrite l0) -> l0 <> G /\ file_at fs7 l0 = None).
  { intros l0 Hl0. apply Hwrote in Hl0 as [->|[C1 C2]].
    - split; [exact HlG|]. rewrite Hfile7 by exact HlG. destruct (loc_eq_dec l l); congruence.
    - pose proof (Hfill l0 C1 C2) as Hr. split; [exact Hr|]. rewrite Hfile7 by exact Hr. destruct (loc_eq_dec l0 l); [reflexivity|].
      destruct (file_at (w_fs wb) l0) as [c0|] eqn:Ef; [apply (R2 l0 c0); repeat split; assumption|].
      rewrite R3 by (intros c0 (_ & _ & C3); congruence). change (w_fs w4) with (w_fs w3). rewrite Hf3, Hw2, Haway by exact Hr. rewrite Hf2l.
      destruct (loc_eq_dec l0 l); [contradiction|assumption]. }
  assert (Hstay : forall l0, ~ happened w w' (EvWrite l0) -> l0 <> G -> file_at fs7 l0 = file_at (w_fs w2) l0).
  { intros l0 Hl0 HxG. rewrite Hwrote in Hl0. rewrite Hfile7 by assumption. destruct (loc_eq_dec l0 l) as [->|]; [exfalso; auto|].
    rewrite R3; [change (w_fs w4) with (w_fs w3); apply Hf3; assumption|]. intros c0 (C1 & C2 & _). auto. }
  set (w7' := mkWorld fs7 (w_mounts w5) (w_inputs w5) (w_uuid w5) (EvClose i3 :: EvRemove i3 (k ++ $".json") :: w_log w5)).
  set (w7 := logged (EvRemove i3 []) w7').
  assert (Hclean : repo_clean E2 m p k w2 =
    if o_cluster p then match lookup fs7 D with
    | Some (Dir []) => m_unignore E2 (parent_dir D0) k (set_fs w7 (delete_at fs7 D))
    | Some (Dir _) => (Ok tt, w7)
    | Some (File _) => (Exn NotADirectoryError, w7)
    | None => (Exn FileNotFoundError, w7)
    end else m_unignore E2 (join2 D0 []) (k ++ $".json") w7').
  { unfold repo_clean. cbn zeta. rewrite Hpp. rewrite mbind_run, Hload, Hrm2. cbn [negb].
    rewrite mbind_run. unfold open_context at 1. fold i3. fold D0. change (mkWorld (w_fs w3) _ _ _ _) with w4.
    rewrite mbind_run. unfold remove. rewrite R1. rewrite mbind_run.
    assert (Hcd5 : ctx_dir (mkCtx i3 []) w5 = (Ok (join2 D0 []), w5)).
    { unfold ctx_dir, m_dir_of. rewrite mbind_run. cbn [c_mnt c_sub]. rewrite Hme1, Hme2. reflexivity. }
    rewrite Hcd5. cbn [c_mnt]. rewrite mbind_run, op_free by assumption.
    assert (Hol : os_loc (s_cwd E2) (join2 (join2 D0 []) (k ++ $".json")) = l).
    { rewrite os_loc_location by assumption. rewrite location_snoc by (apply plain_clean, plain_json; assumption).
      rewrite location_join2_any, Hcwd2. reflexivity. }
    cbn [logged w_fs]. rewrite Hol, H5k. fold fs6. rewrite mbind_run. unfold close_context at 1. rewrite op_free by assumption.
    cbn [logged set_fs w_fs w_mounts w_inputs w_uuid w_log c_mnt]. rewrite Hme1, Hc7. destruct (o_cluster p); [|reflexivity]. rewrite op_free by assumption.
    assert (Hod : os_loc (s_cwd E2) (join2 D0 []) = D) by (rewrite os_loc_location, location_join2_any, Hcwd2 by assumption; reflexivity).
    cbn [logged set_fs w_fs w_mounts w_inputs w_uuid w_log]. rewrite Hod.
    assert (Hpd : parent_dir (join2 D0 []) = parent_dir D0).
    { unfold parent_dir. f_equal. f_equal. unfold join2. cbn [isabs]. destruct D0 as [|x r] eqn:ED; [reflexivity|]. rewrite <- ED. destruct (ends_sep D0); [rewrite app_nil_r; reflexivity|apply rstrip_sep_snoc]. }
    rewrite Hpd. reflexivity. }
  destruct (o_cluster p) eqn:Hpc.
  2:{ (* no directory of its own *)
    pose proof (gen_over (s_cwd E2) fs7 (join2 D0 []) [] (fun p => if str_eq_dec p (k ++ $".json") then true else false) s7 Hc2 (Forall_nil _)) as HX. cbn zeta in HX.
    rewrite Hcwd2, location_join2_any in HX. cbn [isabs split_sep] in HX. change (walk (location (s_cwd E) D0) [[]]) with (location (s_cwd E) D0) in HX.
    change (location (s_cwd E) D0 ++ [$".gitignore"]) with G in HX. destruct (HX Hs7) as (fs9 & Z1 & Z2 & _ & Z4). clear HX.
    unfold m_unignore in Hclean. cbn [w7' w_fs] in Hclean. rewrite Hcwd2, Z1 in Hclean.
    eexists. split; [exact Hclean|]. cbn [set_fs w_fs].
    split; [intros l0 Hl0; destruct (Hgone l0 Hl0) as [Hx Hy]; rewrite Z2 by assumption; exact Hy|].
    split; [rewrite HG; intros l0 Hl0 Hx; rewrite Z2 by assumption; apply Hstay; assumption|].
    split; [discriminate|]. intros _. rewrite HG. intros s Hs Hin. destruct Z4 as [Z4|(s' & Z4 & Z5)]; [congruence|]. rewrite Hs in Z4. injection Z4 as <-.
    apply Z5 in Hin as [Hin|[[]|[_ Hin]]]; [exact (json_not_ignore k Hin)|].
    assert (Hin' : exists_at fs7 (requested (s_cwd E) (join2 D0 []) (k ++ $".json")) = true) by (apply Hin; destruct (str_eq_dec (k ++ $".json") (k ++ $".json")) as [_|Hx]; [reflexivity|destruct (Hx eq_refl)]).
    assert (Hrq : requested (s_cwd E) (join2 D0 []) (k ++ $".json") = l).
    { rewrite requested_join2, location_snoc, location_join2_any by (apply plain_clean, plain_json; assumption). reflexivity. }
    rewrite Hrq, exists_at_eq, Hfile7 in Hin' by exact HlG. destruct (loc_eq_dec l l) as [_|Hx]; [|destruct (Hx eq_refl)]. rewrite orb_false_r in Hin'.
    apply Hd7 in Hin' as [Hin' _]. rewrite exists_at_eq, Hin' in X3. discriminate. }
  specialize (HDk eq_refl). specialize (Hnc eq_refl).
  unfold is_dir in HDdir. destruct (lookup fs7 D) as [[|[|[nm nd] es]]|] eqn:EDl; try discriminate.
  - (* the directory is empty *)
    destruct (delete_leaf fs7 D) as (Y1 & Y2 & Y3); [right; assumption|].
    assert (HDn : D <> []) by (rewrite HDk; destruct (location (s_cwd E) (fst (path_split D0))); discriminate). specialize (Y3 HDn).
    set (fs8 := delete_at fs7 D) in *.
    assert (HGD : G <> D) by (intros Hx; apply (Hnc []); rewrite app_nil_r; symmetry; exact Hx).
    assert (H8G : file_at fs8 G = Some (Text s7)) by (rewrite Y1 by assumption; exact Hs7).
    assert (Hpar : parent_dir D0 = fst (path_split D0)) by (apply key_parent_dir; assumption).
    pose proof (gen_over (s_cwd E2) fs8 (fst (path_split D0)) [] (fun p => if str_eq_dec p k then true else false) s7 Hc2 (Forall_nil _)) as HX. cbn zeta in HX.
    rewrite Hcwd2 in HX. change (location (s_cwd E) (fst (path_split D0)) ++ [$".gitignore"]) with G in HX. destruct (HX H8G) as (fs9 & Z1 & Z2 & Z3 & Z4). clear HX.
    unfold m_unignore in Hclean. cbn [set_fs w_fs] in Hclean. rewrite Hpar, Hcwd2, Z1 in Hclean.
    eexists. split; [exact Hclean|]. cbn [set_fs w_fs].
    assert (HfD : file_at fs7 D = None) by (unfold file_at; rewrite EDl; reflexivity).
    assert (HfD8 : file_at fs8 D = None).
    { unfold exists_at in Y3. unfold file_at. destruct (lookup fs8 D); [discriminate|reflexivity]. }
    assert (Hf9 : forall l0, l0 <> G -> file_at fs9 l0 = file_at fs7 l0).
    { intros l0 Hl0. rewrite Z2 by assumption. destruct (loc_eq_dec l0 D) as [->|]; [congruence|apply Y1; assumption]. }
    split; [intros l0 Hl0; destruct (Hgone l0 Hl0) as [Hx Hy]; rewrite Hf9 by assumption; exact Hy|].
    split; [rewrite HG; intros l0 Hl0 Hx; rewrite Hf9 by assumption; apply Hstay; assumption|].
    split; [intros _ _|discriminate]. split.
    + rewrite exists_at_eq, Z3, Z2, HfD8 by (intros Hx; exact (HGD (eq_sym Hx))). rewrite orb_false_r. unfold exists_at in Y3. unfold is_dir. destruct (lookup fs8 D); [discriminate|reflexivity].
    + rewrite HG. intros s Hs Hin. destruct Z4 as [Z4|(s' & Z4 & Z5)]; [congruence|]. rewrite Hs in Z4. injection Z4 as <-. apply Z5 in Hin as [Hin|[[]|[_ Hin]]]; [contradiction|].
      destruct (str_eq_dec k k) as [_|]; [|congruence]. specialize (Hin eq_refl).
      assert (Hrq : requested (s_cwd E) (fst (path_split D0)) k = D).
      { rewrite HDk. rewrite requested_join2, location_join2_any. destruct Hk as (K1 & K2 & K3 & K4). rewrite noslash_not_isabs by exact K4. rewrite split_noslash by exact K4.
        unfold walk. cbn [fold_left]. rewrite walk_step_clean; [reflexivity|]. apply plain_clean. repeat split; assumption. }
      rewrite Hrq in Hin. congruence.
  - (* something else is there *)
    eexists. split; [exact Hclean|]. cbn [w7 logged w_fs].
    split; [intros l0 Hl0; apply (Hgone l0 Hl0)|]. split; [rewrite HG; exact Hstay|].
    split; [intros _ Hno|discriminate]. exfalso.
    assert (Hchild : lookup fs7 (D ++ [nm]) = Some nd).
    { rewrite lookup_app, EDl. cbn. destruct (str_eq_dec nm nm); congruence. }
    destruct nd as [c0|es'].
    + assert (Hf : file_at fs7 (D ++ [nm]) = Some c0) by (unfold file_at; rewrite Hchild; reflexivity). rewrite Hno in Hf; [discriminate|]. exists [nm]. reflexivity.
    + assert (Hdd : is_dir fs7 (D ++ [nm]) = true) by (unfold is_dir; rewrite Hchild; reflexivity). apply Hd7 in Hdd as [_ Hdd].
      destruct Hdd as (r & c0 & Hr); [exists [nm]; reflexivity|intros Hx; apply (f_equal (@List.length _)) in Hx; rewrite app_length in Hx; cbn in Hx; lia|].
      assert (HrG : (D ++ [nm]) ++ r <> G) by (rewrite <- app_assoc; apply Hnc).
      rewrite <- Hfs7 in Hr by assumption. rewrite Hno in Hr; [discriminate|]. exists ([nm] ++ r). rewrite app_assoc. reflexivity.
Qed.
(** When [save] returned, cleaning the key in a later run deletes every file this save wrote; all other files stay as they
    were, except for the .gitignore in which the key (or, without a directory of its own, its json file) is listed.  If no
    other file is left in the directory of the key then that directory is gone and the key is listed no more; a key without
    a directory of its own has its json file listed no more.  (The one thing asked of a key without a directory of its own: that its
    save did not write a record to the .gitignore itself.) *)
Theorem C51_clean_removes_what_save_wrote : forall E E2 n m p k o w o' j w' w2,
  absolute (s_cwd E) -> absolute (o_base p) -> same_code E E2 -> registered_classes E -> ordinary_uuids E -> faithful_methods E ->
  s_limit E2 = None -> s_retouch E = $"auto" \/ s_retouch E = $"quit" -> s_validate E = true ->
  plain k -> one_line k -> k <> $".gitignore" -> o_gitignore p = true ->
  well_formed (w_fs w) -> built E o -> recorded E o -> cleanable E o = true -> n < m ->
  save E n p k o w = (Ok (o', j), w') -> (forall l, own_ignore E p k l -> ~ happened w w' (EvWrite l)) -> w_fs w2 = w_fs w' ->
  let dir := location (s_cwd E) (key_dir p k) in
  let ignore := (if o_cluster p then removelast dir else dir) ++ [$".gitignore"] in
  exists w3, repo_clean E2 m p k w2 = (Ok tt, w3) /\
    (forall l, happened w w' (EvWrite l) -> file_at (w_fs w3) l = None) /\
    (forall l, ~ happened w w' (EvWrite l) -> l <> ignore -> file_at (w_fs w3) l = file_at (w_fs w2) l) /\
    (o_cluster p = true -> (forall l, inside l dir -> file_at (w_fs w3) l = None) ->
       exists_at (w_fs w3) dir = false /\ forall s, file_at (w_fs w3) ignore = Some (Text s) -> ~ In k (splitlines s)) /\
    (o_cluster p = false -> forall s, file_at (w_fs w3) ignore = Some (Text s) -> ~ In (k ++ $".json") (splitlines s)).
Proof. intros. eapply clean_after_save with (E := E); eassumption. Qed.
(** A value without [__remove__]: cleaning the key deletes nothing, neither its json file nor the files of records in it. *)
Theorem C51_clean_keeps_plain_values : forall E E2 n m p k o w o' j w' w2,
  absolute (s_cwd E) -> absolute (o_base p) -> same_code E E2 -> registered_classes E -> ordinary_uuids E -> faithful_methods E ->
  s_limit E2 = None -> s_retouch E = $"auto" \/ s_retouch E = $"quit" -> s_validate E = true ->
  plain k -> one_line k -> k <> $".gitignore" -> o_gitignore p = true ->
  well_formed (w_fs w) -> built E o -> cleanable E o = false -> n < m ->
  save E n p k o w = (Ok (o', j), w') -> (forall l, own_ignore E p k l -> ~ happened w w' (EvWrite l)) -> w_fs w2 = w_fs w' ->
  let dir := location (s_cwd E) (key_dir p k) in
  let ignore := (if o_cluster p then removelast dir else dir) ++ [$".gitignore"] in
  exists w3, repo_clean E2 m p k w2 = (Ok tt, w3) /\ forall l, l <> ignore -> file_at (w_fs w3) l = file_at (w_fs w2) l.
Proof. intros. eapply clean_after_save with (E := E); eassumption. Qed.

(** A modelclass instance with a stored list of two stored items (x.bin, x0.bin) and a bare storable: all files go. *)
Example C51_example :
  absolute (s_cwd rt_env) /\ absolute (o_base ex_opts) /\ same_code rt_env rt_later /\ registered_classes rt_env /\ ordinary_uuids rt_env /\
  faithful_methods rt_env /\ s_limit rt_later = None /\ s_retouch rt_env = $"auto" /\ s_validate rt_env = true /\ plain ($"new") /\ one_line ($"new") /\
  well_formed (w_fs ex_world) /\ built rt_env ex_model /\ recorded rt_env ex_model /\ cleanable rt_env ex_model = true /\
  exists o' j w' w3, save rt_env 10 ex_opts ($"new") ex_model ex_world = (Ok (o', j), w') /\
    file_at (w_fs w') [$"proj"; $".dman"; $"gen"; $"new"; $"x0.bin"] = Some (Text ($"two")) /\
    happened ex_world w' (EvWrite [$"proj"; $".dman"; $"gen"; $"new"; $"x0.bin"]) /\
    repo_clean rt_later 11 ex_opts ($"new") (mkWorld (w_fs w') [] [] 0 []) = (Ok tt, w3) /\ w_fs w3 = ex_fs.
Proof.
  destruct rt_registered as [H1 H2]. pose proof rt_uuids as H3. pose proof rt_built as H4.
  split; [eexists; reflexivity|]. split; [eexists; reflexivity|]. split; [repeat split|]. repeat (split; [assumption|]). repeat (split; [reflexivity|]).
  split; [repeat split; try discriminate; cbn; intros Hx; repeat destruct Hx as [Hx|Hx]; try discriminate; contradiction|].
  split; [intros c Hx; cbn in Hx; repeat destruct Hx as [<-|Hx]; try reflexivity; contradiction|].
  split; [cbn; repeat constructor; cbn; tauto|]. split; [assumption|]. split; [|split; [reflexivity|]].
  - apply r_model with (fds := match k_kind (s_class rt_env 1) with SModel f => f | _ => [] end); [reflexivity|].
    intros f v Hf Hn Ha. cbn in Hf. repeat destruct Hf as [<-|Hf]; try contradiction; cbn in Hn, Ha; try discriminate; injection Ha as <-; (split; [|try (intros; reflexivity); try (intros Hx; exfalso; apply Hx; reflexivity)]).
    + constructor. intros x [<-|[<-|[]]]; constructor.
    + constructor. constructor. intros x [<-|[<-|[]]]; (split; [repeat constructor|reflexivity]).
  - let v := eval vm_compute in (save rt_env 10 ex_opts ($"new") ex_model ex_world) in
    match v with (Ok (?o, ?j), ?w') => 
      exists o, j, w';
      let x := eval vm_compute in (repo_clean rt_later 11 ex_opts ($"new") (mkWorld (w_fs w') [] [] 0 [])) in
      match x with (_, ?w3) => exists w3 end
    end.
    split; [vm_compute; reflexivity|]. split; [vm_compute; reflexivity|]. split; [|split; vm_compute; reflexivity].
    match goal with |- happened _ ?w _ => exists (w_log w) end. split; [vm_compute; reflexivity|]. cbn. tauto.
Qed.
(** The same object under a key without a directory of its own. *)
Definition cl_flat : opts := mkOpts (o_base ex_opts) (o_generator ex_opts) (o_subdir ex_opts) false true.
Example C51_flat_example :
  exists o' j w' w3, save rt_env 10 cl_flat ($"new") ex_model ex_world = (Ok (o', j), w') /\
    (forall l, own_ignore rt_env cl_flat ($"new") l -> ~ happened ex_world w' (EvWrite l)) /\
    file_at (w_fs w') [$"proj"; $".dman"; $"gen"; $"new.json"] <> None /\
    happened ex_world w' (EvWrite [$"proj"; $".dman"; $"gen"; $"x0.bin"]) /\
    repo_clean rt_later 11 cl_flat ($"new") (mkWorld (w_fs w') [] [] 0 []) = (Ok tt, w3) /\
    file_at (w_fs w3) [$"proj"; $".dman"; $"gen"; $"new.json"] = None /\ file_at (w_fs w3) [$"proj"; $".dman"; $"gen"; $"x0.bin"] = None /\
    exists s0 s3, file_at (w_fs w') [$"proj"; $".dman"; $"gen"; $".gitignore"] = Some (Text s0) /\ In ($"new.json") (splitlines s0) /\
      file_at (w_fs w3) [$"proj"; $".dman"; $"gen"; $".gitignore"] = Some (Text s3) /\ ~ In ($"new.json") (splitlines s3) /\
      (* the lines of the records that went stay *) In ($"x0.bin") (splitlines s3).
Proof.
  let v := eval vm_compute in (save rt_env 10 cl_flat ($"new") ex_model ex_world) in
    match v with (Ok (?o, ?j), ?w') => 
      exists o, j, w';
      let x := eval vm_compute in (repo_clean rt_later 11 cl_flat ($"new") (mkWorld (w_fs w') [] [] 0 [])) in
      match x with (_, ?w3) => exists w3 end
    end.
  split; [vm_compute; reflexivity|]. split.
  { intros l (_ & _ & ->) (evs & H1 & H2). change (w_log ex_world) with (@nil event) in H1. rewrite app_nil_r in H1. subst evs.
    revert H2. vm_compute. intros H2. repeat destruct H2 as [H2|H2]; try discriminate. contradiction. }
  split; [vm_compute; discriminate|]. split.
  { match goal with |- happened _ ?w _ => exists (w_log w) end. split; [vm_compute; reflexivity|]. cbn. tauto. }
  split; [vm_compute; reflexivity|]. split; [vm_compute; reflexivity|]. split; [vm_compute; reflexivity|].
  match goal with |- exists s0 s3, file_at ?a ?p = _ /\ _ /\ file_at ?b _ = _ /\ _ =>
    let x := eval vm_compute in (file_at a p) in let y := eval vm_compute in (file_at b p) in
    match x with Some (Text ?x) => match y with Some (Text ?y) => exists x, y end end end.
  split; [vm_compute; reflexivity|]. split; [vm_compute; tauto|]. split; [vm_compute; reflexivity|]. split; [|vm_compute; tauto].
  vm_compute. intros H2. repeat destruct H2 as [H2|H2]; try discriminate. contradiction.
Qed.
(** A dict of records: nothing goes. *)
Definition cl_dict : obj := ODict [(AStr ($"a"), rec_of (blob "one") "a"); (AStr ($"n"), OAtom (AInt 3))].
Example C51_plain_example :
  built rt_env cl_dict /\ cleanable rt_env cl_dict = false /\
  exists o' j w' w3, save rt_env 10 ex_opts ($"new") cl_dict ex_world = (Ok (o', j), w') /\
    file_at (w_fs w') [$"proj"; $".dman"; $"gen"; $"new"; $"a.bin"] = Some (Text ($"one")) /\
    repo_clean rt_later 11 ex_opts ($"new") (mkWorld (w_fs w') [] [] 0 []) = (Ok tt, w3) /\
    file_at (w_fs w3) [$"proj"; $".dman"; $"gen"; $"new"; $"a.bin"] = Some (Text ($"one")).
Proof.
  split; [|split; [reflexivity|]].
  - constructor; [|].
    + intros k x [Hx|[Hx|[]]]; injection Hx as <- <-; (split; [eexists; split; [reflexivity|discriminate]|]); [|constructor].
      apply (stem_ordinary _ "a"); try (eapply b_leaf; reflexivity);
        repeat split; try discriminate; cbn; intros Hx; repeat destruct Hx as [Hx|Hx]; try discriminate; contradiction.
    + constructor; [intros [Hx|[]]; discriminate|constructor; [intros []|constructor]].
  - let v := eval vm_compute in (save rt_env 10 ex_opts ($"new") cl_dict ex_world) in
    match v with (Ok (?o, ?j), ?w') => 
      exists o, j, w';
      let x := eval vm_compute in (repo_clean rt_later 11 ex_opts ($"new") (mkWorld (w_fs w') [] [] 0 [])) in
      match x with (_, ?w3) => exists w3 end
    end.
    repeat (split; [vm_compute; reflexivity|]). vm_compute; reflexivity.
Qed.
(** For a key saved with [gitignore=False] the claim fails: [clean] goes through the motions with its own default [gitignore=True], and
    after the last directory is deleted it raises FileNotFoundError over the .gitignore that was never there. *)
Definition cl_opts : opts := mkOpts (o_base ex_opts) (o_generator ex_opts) (o_subdir ex_opts) true false.
Theorem C51_without_gitignore_refuted : exists o' j w' w3,
  save rt_env 10 cl_opts ($"new") ex_model ex_world = (Ok (o', j), w') /\
  repo_clean rt_later 11 cl_opts ($"new") (mkWorld (w_fs w') [] [] 0 []) = (Exn FileNotFoundError, w3).
Proof.
  let v := eval vm_compute in (save rt_env 10 cl_opts ($"new") ex_model ex_world) in
    match v with (Ok (?o, ?j), ?w') => 
      exists o, j, w';
      let x := eval vm_compute in (repo_clean rt_later 11 cl_opts ($"new") (mkWorld (w_fs w') [] [] 0 [])) in
      match x with (_, ?w3) => exists w3 end
    end.
  split; vm_compute; reflexivity.
Qed.

(** [clean] takes no [gitignore] option, so what it does cannot depend on the one the key was saved with.  A record that is loaded at once
    (preload) puts the key on the .gitignore that the key was to be saved without; then [clean] finds a list to strike it from and returns. *)
Theorem C51_clean_knows_no_gitignore_option : forall E n b g sd cl x y k w,
  repo_clean E n (mkOpts b g sd cl x) k w = repo_clean E n (mkOpts b g sd cl y) k w.
Proof. reflexivity. Qed.
Definition cl_preload : obj :=
  OMap (mkMap false [] false false false) [($"a", ORec (blob "one") (mkTarget (Some []) (Some ($"a")) None) true None None)] [].
Example C51_clean_preload_example : exists o' j w' w3,
  save rt_env 10 cl_opts ($"new") cl_preload ex_world = (Ok (o', j), w') /\
  file_at (w_fs w') [$"proj"; $".dman"; $"gen"; $".gitignore"] = None /\
  repo_clean rt_later 11 cl_opts ($"new") (mkWorld (w_fs w') [] [] 0 []) = (Ok tt, w3).
Proof.
  let v := eval vm_compute in (save rt_env 10 cl_opts ($"new") cl_preload ex_world) in
    match v with (Ok (?o, ?j), ?w') => 
      exists o, j, w';
      let x := eval vm_compute in (repo_clean rt_later 11 cl_opts ($"new") (mkWorld (w_fs w') [] [] 0 [])) in
      match x with (_, ?w3) => exists w3 end
    end.
  repeat (split; [vm_compute; reflexivity|]). vm_compute; reflexivity.
Qed.

Print Assumptions C51_clean_removes_what_save_wrote.
Print Assumptions C51_clean_keeps_plain_values.
Print Assumptions C51_without_gitignore_refuted.
Print Assumptions C51_clean_knows_no_gitignore_option.
