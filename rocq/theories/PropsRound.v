(** Saving and loading again: C43, C45. *)
From Coq Require Import List Ascii String Bool Arith ZArith Lia.
From Verif Require Import Base PosixModel FsModel PathModel SerialModel StoreModel StoreFrame StoreMount StoreSpec StoreLocal StorePlace
     StoreRecord StoreSave StoreEvents StoreExample SerialSpec SerialProof RoundSpec KeepSpec RoundProof PathSpec MountSpec DirSpec PosixProof FsProof DirProof TargetProof MountProof
     HistoryProof PathFacts PropsStore PropsRepo.
Import ListNotations.

Local Arguments str_eq_dec : simpl never.
Local Arguments atom_eq_dec : simpl never.

(** ** Deserialization leaves the options of mounts alone *)
Lemma de_statics E n cx x p w r w' : f_de (depth E n) cx x p w = (r, w') -> statics w' = statics w.
Proof.
  intros H. pose proof (depth_pres E (fun _ => True) (fun a b => statics b = statics a)) as Hd.
  assert (Hp : forall j q ch w, statics (snd (m_prepare E j q ch w)) = statics w).
  { intros j q ch w0. destruct (m_prepare E j q ch w0) as [r0 w1] eqn:E0. unfold m_prepare in E0. apply op_cases in E0 as [(_ & -> & _)|E0]; [reflexivity|].
    cbn [logged w_mounts] in E0. destruct (nth_error (w_mounts w0) j) as [m|] eqn:Em; [|injection E0 as <- <-; reflexivity].
    destruct (prepare _ _ _ _ _ _ _ _) as [r1 [[fs1 m1] inp1]] eqn:Ep. injection E0 as <- <-. cbn [snd]. unfold statics at 1. cbn [w_mounts].
    eapply statics_set; [exact Em|]. eapply prepare_static. exact Ep. }
  specialize (Hd (fun _ => eq_refl) (fun a b c H1 H2 => eq_trans H2 H1) (fun _ _ _ _ => I) 0 (fun _ => True) (fun _ => False)).
  destruct Hd with (n := n) as (_ & H1 & _); [intros c []| | | | | | |intros ? ? ? ? ? ? []|].
  - intros w0 _. reflexivity.
  - intros l w0 _. unfold m_read. destruct (op E _ _ w0) as [r0 w1] eqn:E0. apply op_cases in E0 as [(_ & -> & _)|E0]; [reflexivity|].
    cbn [logged w_fs] in E0. destruct (lookup (w_fs w0) l) as [[|]|]; injection E0 as _ <-; reflexivity.
  - intros j q w0 _. apply Hp.
  - intros q w0 _. apply Hp.
  - intros q w0 _. unfold m_remove. destruct (op E _ _ w0) as [r0 w1] eqn:E0. apply op_cases in E0 as [(_ & -> & _)|E0]; [reflexivity|].
    cbn [logged w_mounts] in E0. destruct (nth_error (w_mounts w0) 0) as [m|] eqn:Em; [|injection E0 as <- <-; reflexivity].
    destruct (mount_remove _ _ _ _ _) as [r1 [fs1 m1]] eqn:Ep. injection E0 as <- <-. cbn [snd]. unfold statics at 1. cbn [w_mounts].
    apply (statics_set w0 0 m m1); [exact Em|]. eapply mount_remove_static. exact Ep.
  - intros l c _ w0 _. unfold m_write. destruct (op E _ _ w0) as [r0 w1] eqn:E0. apply op_cases in E0 as [(_ & -> & _)|E0]; [reflexivity|].
    cbn [logged w_fs] in E0. destruct (write_file _ _ _); injection E0 as _ <-; reflexivity.
  - specialize (H1 cx x p w I). rewrite H in H1. exact H1.
Qed.

(** ** Closing the mount *)
Definition ignore_loc (cwd : str) (cluster : bool) (dir : str) : loc :=
  location cwd (if cluster then fst (path_split dir) else dir) ++ [$".gitignore"].
Lemma gitignore_run cwd fs d ig ck : absolute cwd ->
  let G := location cwd d ++ [$".gitignore"] in
  match lookup fs G with
  | Some (Dir _) => gitignore cwd fs d ig ck = Exn IsADirectoryError
  | Some (File (Json _)) => gitignore cwd fs d ig ck = Exn ValueError
  | _ => gitignore cwd fs d ig ck =
         match gi_entries cwd fs d ig ck with [_] => os_remove fs G | es => write_file fs G (Text (join_lines es)) end
  end.
Proof. intros Hc G. pose proof (gitignore_eq cwd fs d ig ck) as E. rewrite requested_os, gitignore_loc in E by assumption. exact E. Qed.
(** In the directory above, when the mount is a directory of its own. *)
Lemma close_away cwd fs m fs' : absolute cwd -> well_formed fs -> mount_close cwd fs m = Ok fs' ->
  forall q, (m_gitignore m = true -> q <> ignore_loc cwd (m_cluster m) (m_dir m)) -> file_at fs' q = file_at fs q.
Proof.
  intros Hc Hw H q Hq. unfold mount_close in H. set (fs1 := prune_directories fs (os_loc cwd (m_dir m))) in *.
  assert (H1 : file_at fs1 q = file_at fs q) by (apply prune_directories_file_at; assumption). rewrite <- H1.
  destruct (m_gitignore m); cbn [negb] in H; [|injection H as <-; reflexivity]. specialize (Hq eq_refl).
  destruct (flat_map _ _) as [|x r] in H; [injection H as <-; reflexivity|].
  assert (Hgen : forall d ig, q <> location cwd d ++ [$".gitignore"] -> gitignore cwd fs1 d ig (m_removed m) = Ok fs' -> file_at fs' q = file_at fs1 q).
  { clear H Hq. intros d ig Hq H. pose proof (gitignore_run cwd fs1 d ig (m_removed m) Hc) as E. cbn zeta in E. set (G := location cwd d ++ [$".gitignore"]) in *.
    assert (K : forall es, write_file fs1 G (Text (join_lines es)) = Ok fs' -> file_at fs' q = file_at fs1 q).
    { intros es Hes. rewrite (write_file_lookup _ _ _ _ Hes). destruct (loc_eq_dec q G); congruence. }
    destruct (lookup fs1 G) as [[[s|j]|es]|] eqn:El; try congruence; rewrite H in E;
      (destruct (gi_entries _ _ _ _ _) as [|e1 [|e2 es']]; [eapply K; symmetry; exact E| |eapply K; symmetry; exact E]);
      unfold os_remove in E; rewrite El in E; [|discriminate]. injection E as ->. apply delete_leaf; [left; eauto|assumption]. }
  unfold ignore_loc in Hq. destruct (m_cluster m); [|eapply Hgen; eassumption].
  destruct (path_split (m_dir m)) as [d n]. cbn [fst] in Hq. eapply Hgen; eassumption.
Qed.
(** A line of its own in the list that is written is a line of the file, whatever the other entries are. *)
Lemma newlines_split n : forall a b, List.length a <= n -> exists pre, universal_newlines (a ++ ascii_of_nat 10 :: b) = pre ++ ascii_of_nat 10 :: universal_newlines b.
Proof.
  induction n as [|n IH]; intros a b Hle; (destruct a as [|x a]; [exists []; reflexivity|]); [cbn in Hle; lia|]. cbn [List.length] in Hle. cbn [app universal_newlines].
  destruct (code x =? 13).
  - destruct a as [|y a]; cbn [app].
    + exists []. reflexivity.
    + cbn [List.length] in Hle. destruct (code y =? 10).
      * destruct (IH a b ltac:(lia)) as [pre ->]. exists (ascii_of_nat 10 :: pre). reflexivity.
      * destruct (IH (y :: a) b ltac:(cbn; lia)) as [pre Hp]. cbn [app] in Hp. rewrite Hp. exists (ascii_of_nat 10 :: pre). reflexivity.
  - destruct (IH a b ltac:(lia)) as [pre ->]. exists (x :: pre). reflexivity.
Qed.
Lemma newlines_one x r : one_line x -> universal_newlines (x ++ r) = x ++ universal_newlines r.
Proof.
  induction x as [|c x IH]; intros H; [reflexivity|]. cbn [app universal_newlines].
  destruct (Nat.eqb_spec (code c) 13) as [Hc|_]; [exfalso; specialize (H c (or_introl eq_refl)); unfold is_line_break in H; rewrite Hc in H; discriminate|].
  rewrite IH by (intros d Hd; apply H; right; assumption). reflexivity.
Qed.
Lemma acc_split pre rest : forall cur, exists ls, splitlines_acc cur (pre ++ ascii_of_nat 10 :: rest) = ls ++ splitlines_acc [] rest.
Proof.
  induction pre as [|c pre IH]; intros cur; cbn [app splitlines_acc]; [exists [rev cur]; reflexivity|].
  destruct (is_line_break c); [destruct (IH []) as [ls ->]; exists (rev cur :: ls); reflexivity|]. apply IH.
Qed.
Lemma join_lines_has x l : In x l -> one_line x -> x <> [] -> In x (splitlines (join_lines l)).
Proof.
  intros Hin Hx Hn. unfold splitlines. induction l as [|y l IH]; [contradiction|]. destruct l as [|z l].
  - destruct Hin as [->|[]]. cbn [join_lines]. rewrite <- (app_nil_r x) at 2. rewrite newlines_one by assumption. cbn [universal_newlines]. rewrite app_nil_r.
    rewrite splitlines_acc_last by assumption. left. reflexivity.
  - change (join_lines (y :: z :: l)) with (y ++ ascii_of_nat 10 :: join_lines (z :: l)).
    assert (Hc : In x (splitlines_acc [] (universal_newlines (y ++ ascii_of_nat 10 :: join_lines (z :: l)))) \/ In x (z :: l)) by (destruct Hin as [->|Hin]; [left|right; assumption];
      rewrite newlines_one by assumption; cbn [universal_newlines]; change (code (ascii_of_nat 10) =? 13) with false; cbn iota; rewrite splitlines_acc_one by assumption; left; reflexivity).
    destruct Hc as [Hc|Hc]; [assumption|]. destruct (newlines_split (List.length y) y (join_lines (z :: l)) (le_n _)) as [pre ->].
    destruct (acc_split pre (universal_newlines (join_lines (z :: l))) []) as [ls ->]. apply in_or_app. right. apply IH. assumption.
Qed.
(** Such a mount with a file leaves a .gitignore there ... *)
Lemma close_leaves cwd fs m fs' t q : absolute cwd -> well_formed fs -> m_gitignore m = true ->
  (if m_cluster m then snd (path_split (m_dir m)) else q) <> $".gitignore" ->
  In t (m_touched m) -> fspath t = Ok q -> (exists c, file_at fs (os_loc cwd (join2 (m_dir m) q)) = Some c) ->
  mount_close cwd fs m = Ok fs' -> exists s, file_at fs' (ignore_loc cwd (m_cluster m) (m_dir m)) = Some (Text s) /\
    (let n := if m_cluster m then snd (path_split (m_dir m)) else q in one_line n -> n <> [] -> In n (splitlines s)).
Proof.
  intros Hc Hw Hg Hn Ht Hq [c Hf] H. unfold mount_close in H. rewrite Hg in H. cbn [negb] in H.
  set (fs1 := prune_directories fs (os_loc cwd (m_dir m))) in *.
  assert (Hf1 : exists_at fs1 (os_loc cwd (join2 (m_dir m) q)) = true).
  { rewrite <- (prune_directories_file_at fs (os_loc cwd (m_dir m)) Hw) in Hf. fold fs1 in Hf. unfold file_at in Hf. unfold exists_at.
    destruct (lookup fs1 _); [reflexivity|discriminate]. }
  match type of H with context [flat_map ?f ?l] => set (ig := flat_map f l) in * end.
  assert (Hin : In q ig) by (apply in_flat_map; exists t; split; [assumption|]; rewrite Hq, Hf1; left; reflexivity).
  assert (Hgen : forall d ig n, In n ig -> n <> $".gitignore" -> gitignore cwd fs1 d ig (m_removed m) = Ok fs' ->
            exists s, file_at fs' (location cwd d ++ [$".gitignore"]) = Some (Text s) /\ (one_line n -> n <> [] -> In n (splitlines s))).
  { clear - Hc. intros d ig n Hi Hn H. pose proof (gitignore_run cwd fs1 d ig (m_removed m) Hc) as E. cbn zeta in E. set (G := location cwd d ++ [$".gitignore"]) in *.
    assert (P1 : In ($".gitignore") (gi_entries cwd fs1 d ig (m_removed m))) by (apply gi_entries_In; [assumption|left; reflexivity]).
    assert (P2 : In n (gi_entries cwd fs1 d ig (m_removed m))) by (apply gi_entries_In; [assumption|right; left; assumption]).
    assert (Hes : exists es, write_file fs1 G (Text (join_lines es)) = Ok fs' /\ In n es).
    { destruct (gi_entries cwd fs1 d ig (m_removed m)) as [|e1 [|e2 es]]; [contradiction| |].
      - exfalso. destruct P1 as [->|[]]. destruct P2 as [P2|[]]. congruence.
      - exists (e1 :: e2 :: es). split; [|exact P2]. destruct (lookup fs1 G) as [[[s|j]|]|]; congruence. }
    destruct Hes as [es [Hes Hin]]. exists (join_lines es). split; [rewrite (write_file_lookup _ _ _ _ Hes); destruct (loc_eq_dec G G); congruence|].
    intros H1 H2. apply join_lines_has; assumption. }
  destruct ig as [|x r]; [contradiction|]. unfold ignore_loc. destruct (m_cluster m).
  - destruct (path_split (m_dir m)) as [d n]. cbn [fst snd] in *. apply (Hgen d [n] n); [left; reflexivity|assumption|assumption].
  - eapply Hgen; eassumption.
Qed.
(** ... and closing a mount again over it works. *)
Lemma write_over l : forall fs x c c', file_at fs (l ++ [x]) = Some c -> exists fs', write_file fs (l ++ [x]) c' = Ok fs'.
Proof.
  intros fs x c c' H. apply write_file_ok; unfold file_at, is_dir in *.
  - revert fs H. induction l as [|y l IH]; intros fs H; cbn in *; (destruct fs as [|es]; [discriminate|]); [reflexivity|].
    destruct (assoc y es) as [n|]; [|discriminate]. apply IH. assumption.
  - destruct (lookup fs (l ++ [x])) as [[|]|]; [reflexivity|discriminate|discriminate].
Qed.
Lemma close_again cwd fs m s : absolute cwd -> well_formed fs ->
  (m_gitignore m = true -> file_at fs (ignore_loc cwd (m_cluster m) (m_dir m)) = Some (Text s)) -> exists fs', mount_close cwd fs m = Ok fs'.
Proof.
  intros Hc Hw Hg. unfold mount_close. set (fs1 := prune_directories fs (os_loc cwd (m_dir m))).
  destruct (m_gitignore m); cbn [negb]; [|eauto]. specialize (Hg eq_refl).
  match goal with |- context [flat_map ?f ?l] => destruct (flat_map f l) as [|x r] end; [eauto|].
  rewrite <- (prune_directories_file_at fs (os_loc cwd (m_dir m)) Hw) in Hg. fold fs1 in Hg.
  assert (Hgen : forall d ig, file_at fs1 (location cwd d ++ [$".gitignore"]) = Some (Text s) -> exists fs', gitignore cwd fs1 d ig (m_removed m) = Ok fs').
  { clear - Hc. intros d ig Hg. pose proof (gitignore_run cwd fs1 d ig (m_removed m) Hc) as E. cbn zeta in E.
    assert (El : lookup fs1 (location cwd d ++ [$".gitignore"]) = Some (File (Text s))).
    { unfold file_at in Hg. destruct (lookup fs1 _) as [[|]|]; congruence. }
    rewrite El in E. rewrite E.
    assert (K : forall es, exists fs', write_file fs1 (location cwd d ++ [$".gitignore"]) (Text (join_lines es)) = Ok fs').
    { intros es. eapply write_over. exact Hg. }
    destruct (gi_entries _ _ _ _ _) as [|e1 [|e2 es]]; try apply K. unfold os_remove. rewrite El. eauto. }
  unfold ignore_loc in Hg. destruct (m_cluster m); [|apply Hgen; assumption].
  destruct (path_split (m_dir m)) as [d n]. cbn [fst] in Hg. apply Hgen. assumption.
Qed.
Lemma key_split p k : plain k -> o_cluster p = true -> snd (path_split (key_dir p k)) = k.
Proof.
  intros Hk Hc. unfold path_split, key_dir. rewrite Hc. unfold mount_dir, joinN. cbn [fold_left].
  assert (H : snd (split_last_sep (join2 (join2 (o_base p) (o_generator p)) (join2 (o_subdir p) k))) = k).
  { rewrite last_sep_join2. apply split_last_sep_join. apply Hk. }
  destruct (split_last_sep _) as [h t]. exact H.
Qed.

(** Among the files below the directory of a key, only [own_ignore] is touched by closing its mount. *)
Lemma own_ignore_loc E p k r : plain k -> k <> $".gitignore" -> o_gitignore p = true ->
  location (s_cwd E) (key_dir p k) ++ r = ignore_loc (s_cwd E) (o_cluster p) (key_dir p k) -> own_ignore E p k (location (s_cwd E) (key_dir p k) ++ r).
Proof.
  intros Hk Hgi Hgt Hx. unfold ignore_loc in Hx. destruct (o_cluster p) eqn:Ec; [|repeat split; assumption].
  exfalso. rewrite (key_parent E p k Hk Ec), <- app_assoc in Hx. apply app_inv_head in Hx. apply (f_equal (hd [])) in Hx. exact (Hgi Hx).
Qed.
Lemma json_not_ignore k : k ++ $".json" <> $".gitignore".
Proof.
  intros H. change ($".json") with ($".jso" ++ $"n") in H. change ($".gitignore") with ($".gitignor" ++ $"e") in H.
  rewrite app_assoc in H. apply app_inj_tail in H as [_ H]. discriminate.
Qed.

(** ** C45 *)
(** What a later run sees depends on the files this save wrote, and on the .gitignore around the key. *)
Lemma files_round_trip E E2 n m p k o w o' j w' w2 :
  absolute (s_cwd E) -> absolute (o_base p) -> same_code E E2 -> registered_classes E -> ordinary_uuids E -> faithful_methods E ->
  s_limit E2 = None -> s_retouch E = $"auto" \/ s_retouch E = $"quit" -> s_validate E = true ->
  plain k -> k <> $".gitignore" ->
  well_formed (w_fs w) -> built E o -> n < m ->
  save E n p k o w = (Ok (o', j), w') -> (forall l, own_ignore E p k l -> ~ happened w w' (EvWrite l)) ->
  well_formed (w_fs w2) -> (forall l, happened w w' (EvWrite l) -> file_at (w_fs w2) l = file_at (w_fs w') l) ->
  (o_gitignore p = true -> let G := ignore_loc (s_cwd E) (o_cluster p) (key_dir p k) in file_at (w_fs w2) G = file_at (w_fs w') G) ->
  exists t o2 w3 w4, (forall w0, view E m m o w0 = (Ok t, w0)) /\
    load E2 m p k None None w2 = (Ok o2, w3) /\ view E2 m m o2 w3 = (Ok t, w4).
Proof.
  intros Hc Hb Hsame Hreg Huid Hfai Hlim Hret Hval Hk Hgi Hw Hbu Hnm H Hcl Hwf2' Hw2 HwG. cbn zeta in HwG.
  assert (Hun : In (s_retouch E) unattended) by (destruct Hret as [-> | ->]; [left|right; left]; reflexivity).
  pose proof (save_inv_log E Hc Hun p k Hb n o w o' j w' [k]) as HS. cbn zeta in HS. cbn [removelast last app] in HS.
  destruct HS as (o1 & q & u & wa & wb & fs1 & fs2 & mt & Ho1 & Hg & Hoka & Hser & Hokb & Hf1 & Hf2 & Hmt & Hmt' & Hmd & Hclose & Hlog);
    [discriminate|constructor; [assumption|constructor]|reflexivity|assumption|assumption|].
  set (i := List.length (w_mounts w)) in *. set (D0 := key_dir p k) in *.
  assert (Hdir : absolute D0) by (apply key_dir_absolute; assumption).
  set (D := location (s_cwd E) D0) in *. set (l := D ++ [k ++ $".json"]) in *.
  assert (Hcwd2 : s_cwd E2 = s_cwd E) by apply Hsame.
  destruct (gave_claims E i D0 Hret q _ u [k ++ $".json"] [k ++ $".json"] wa Hg (opened_ok p k w Hw)) as (Gc & _ & _ & HD).
  assert (Hla : claimed E i D0 wa l) by (apply Gc; right; reflexivity).
  assert (Hbu1 : built E o1).
  { destruct Ho1 as [[-> _]|(-> & _)]; [assumption|]. unfold fresh_record. apply b_rec; [assumption|apply auto_ordinary; assumption]. }
  pose proof (ser_saved E E2 i D0 Hc Hdir Hret Hval Hreg Huid Hfai Hsame Hlim n o1 false [] (mkCtx i []) wa o' j wb Hbu1) as HSv.
  destruct HSv as ([Sg (evs & Hlb & Sf)] & _ & Sj & _ & t & St & SL); [discriminate|apply sctx_top|assumption|exact Hser|]. cbn iota in SL.
  set (g := fresh E i D0 wa wb) in *.
  assert (Hst : m_gitignore mt = o_gitignore p /\ m_cluster mt = o_cluster p).
  { pose proof (on_ser E i D0 Hc Hdir Hun (fun _ => True) (fun _ _ => I) n (mkCtx i []) [] o1 (sctx_top i) wa Hoka) as Hons.
    rewrite Hser in Hons. destruct Hons as (_ & Hons & _). cbn [snd] in Hons.
    pose proof (statics_nth _ _ _ Hmt) as Hn. rewrite Hons in Hn. destruct Hg as (mm & touched & fs' & G1 & _ & _ & _ & _ & -> & _).
    unfold opened in G1. cbn [w_mounts] in G1. rewrite nth_error_app2, Nat.sub_diag in G1 by lia. injection G1 as <-.
    unfold statics in Hn. cbn [w_mounts] in Hn. rewrite nth_error_map, nth_set_nth in Hn. destruct (Nat.eq_dec i i); [|congruence].
    unfold opened in Hn. cbn [w_mounts] in Hn. rewrite nth_error_app2, Nat.sub_diag in Hn by (unfold i; lia). cbn in Hn. injection Hn as _ Hn1 Hn2. auto. }
  destruct Hst as [Hst1 Hst2].
  assert (Hwf2 : well_formed fs2) by (destruct Hokb as [_ Hwb]; exact (write_file_wf _ _ _ _ Hf2 (write_file_wf _ _ _ _ Hf1 Hwb))).
  assert (Hwf' : well_formed (w_fs w')) by (eapply mount_close_wf; eassumption).
  assert (Hloga : w_log wa = EvPrepare i q :: w_log w).
  { destruct Hg as (mm & touched & fs' & _ & _ & _ & _ & _ & -> & _). reflexivity. }
  assert (Hlg : w_log w' = (EvClose i :: EvWrite l :: EvWrite l :: evs ++ [EvPrepare i q]) ++ w_log w).
  { rewrite Hlog, Hlb, Hloga. cbn [app]. rewrite <- app_assoc. reflexivity. }
  assert (Hne : forall r, o_gitignore p = true -> happened w w' (EvWrite (D ++ r)) -> D ++ r <> ignore_loc (s_cwd E) (o_cluster p) D0).
  { intros r Hgt Hh Hx. apply own_ignore_loc in Hx; try assumption. exact (Hcl _ Hx Hh). }
  assert (Hwl : happened w w' (EvWrite l)) by (eexists; split; [exact Hlg|right; left; reflexivity]).
  assert (Hwg : forall l0 c0, g l0 c0 -> exists r, l0 = D ++ r /\ happened w w' (EvWrite (D ++ r))).
  { intros l0 c0 (C1 & C2 & C3). destruct (Sf _ C1) as [C4|C4]; [contradiction|]. destruct C1 as (m1 & u1 & r1 & _ & _ & _ & ->). exists r1. split; [reflexivity|].
    eexists. split; [exact Hlg|]. do 3 right. apply in_or_app. left. exact C4. }
  assert (Hf2l : forall q0, file_at fs2 q0 = if loc_eq_dec q0 l then Some (Json (to_json (s_float E) j)) else file_at (w_fs wb) q0).
  { intros q0. rewrite (write_file_lookup _ _ _ _ Hf2). destruct (loc_eq_dec q0 l); [reflexivity|].
    rewrite (write_file_lookup _ _ _ _ Hf1). destruct (loc_eq_dec q0 l); congruence. }
  assert (Hlj : file_at (w_fs w') l = Some (Json (to_json (s_float E) j))).
  { rewrite (close_away _ _ _ _ Hc Hwf2 Hclose) by (intros Hgt; rewrite Hmd, Hst2; apply Hne; [congruence|exact Hwl]).
    rewrite Hf2l. destruct (loc_eq_dec l l); congruence. }
  assert (Hgw : forall l0 c0, g l0 c0 -> file_at (w_fs w') l0 = Some c0).
  { intros l0 c0 H0. destruct (Hwg _ _ H0) as (r1 & Hr1 & Hh). destruct H0 as (C1 & C2 & C3). rewrite (close_away _ _ _ _ Hc Hwf2 Hclose).
    - rewrite Hf2l. destruct (loc_eq_dec l0 l) as [->|_]; [contradiction|assumption].
    - intros Hgt. rewrite Hmd, Hst2, Hr1. apply Hne; [congruence|assumption]. }
  assert (Hign : m_gitignore mt = true -> exists s, file_at (w_fs w') (ignore_loc (s_cwd E) (o_cluster p) D0) = Some (Text s)).
  { intros Hgt. pose proof (Sg l Hla) as [(m1 & u1 & r1 & C1 & C2 & C3 & C4) _]. rewrite Hmt in C1. injection C1 as <-.
    pose proof C3 as (_ & _ & C5 & _). rewrite <- Hmd, <- Hst2.
    cut (exists s, file_at (w_fs w') (ignore_loc (s_cwd E) (m_cluster mt) (m_dir mt)) = Some (Text s) /\
      (let n0 := if m_cluster mt then snd (path_split (m_dir mt)) else relstr r1 in one_line n0 -> n0 <> [] -> In n0 (splitlines s))).
    { intros (s & Hs & _). eauto. }
    apply (close_leaves (s_cwd E) fs2 mt (w_fs w') u1 (relstr r1)); try assumption.
    - rewrite Hmd, Hst2. destruct (o_cluster p) eqn:Ec; [unfold D0; rewrite key_split; assumption|].
      assert (Hr1 : r1 = [k ++ $".json"]) by (symmetry; eapply app_inv_head; exact C4). rewrite Hr1. apply json_not_ignore.
    - exists (Json (to_json (s_float E) j)). destruct (rel_target_location (s_cwd E) D0 u1 r1 (relstr r1) Hdir C3 C5) as (_ & Hrl & _).
      assert (Hol : os_loc (s_cwd E) (join2 (m_dir mt) (relstr r1)) = l) by (rewrite os_loc_location, Hmd, Hrl by assumption; symmetry; exact C4).
      rewrite Hol, Hf2l. destruct (loc_eq_dec l l); congruence. }
  set (i2 := List.length (w_mounts w2)).
  set (w1 := opened p k w2).
  assert (Hjat : json_at E2 p k = l).
  { rewrite (json_at_slash E2 p k [k]); [|reflexivity|discriminate|constructor; [assumption|constructor]]. rewrite Hcwd2. reflexivity. }
  assert (Hlk : lookup (w_fs w2) l = Some (File (Json (to_json (s_float E) j)))).
  { rewrite <- Hw2 in Hlj by exact Hwl. unfold file_at in Hlj. destruct (lookup (w_fs w2) l) as [[|]|]; congruence. }
  set (wl := logged (EvRead l) (logged (EvStat l) w1)).
  assert (Hok1 : mnt_ok i2 D0 wl).
  { apply (opened_ok p k w2). assumption. }
  assert (Hgw2 : forall l0 c0, g l0 c0 -> file_at (w_fs w2) l0 = Some c0).
  { intros l0 c0 H0. destruct (Hwg _ _ H0) as (r1 & Hr1 & Hh). rewrite Hw2 by (rewrite Hr1; exact Hh). auto. }
  destruct (SL m i2 (mkCtx i2 []) wl) as (o2 & wd & L1 & L2 & L3 & _); [lia|apply sctx_top|assumption| |].
  { intros l0 c0 H0. cbn. auto. }
  pose proof (de_statics _ _ _ _ _ _ _ _ L1) as Hsd.
  destruct L2 as [L2 L2'].
  assert (Hokd : mnt_ok i2 D0 wd) by (apply L2'; assumption).
  pose proof Hokd as [(md & Hmd1 & Hmd2 & Hmd3) Hwfd].
  assert (Hsm : m_gitignore md = o_gitignore p /\ m_cluster md = o_cluster p).
  { pose proof (statics_nth _ _ _ Hmd1) as Hn. rewrite Hsd in Hn. unfold statics, wl, w1, opened in Hn. cbn [logged w_mounts] in Hn.
    rewrite nth_error_map, nth_error_app2, Nat.sub_diag in Hn by (unfold i2; lia). cbn in Hn. injection Hn as _ Hn1 Hn2. auto. }
  destruct Hsm as [Hsm1 Hsm2].
  assert (Hcd : exists fs3, mount_close (s_cwd E2) (w_fs wd) md = Ok fs3).
  { rewrite Hcwd2. destruct (m_gitignore mt) eqn:Egt.
    - destruct (Hign eq_refl) as [s Hs]. apply (close_again _ _ _ s); try assumption. intros _. rewrite Hmd2, Hsm2, L2. change (w_fs wl) with (w_fs w2). rewrite HwG by congruence. assumption.
    - apply (close_again _ _ _ []); try assumption. intros Hx. congruence. }
  destruct Hcd as [fs3 Hcd].
  set (w3 := mkWorld fs3 (w_mounts wd) (w_inputs wd) (w_uuid wd) (EvClose i2 :: w_log wd)).
  assert (Hok3 : mnt_ok i2 D0 w3).
  { split; [exists md; auto|]. eapply mount_close_wf; eassumption. }
  assert (Hg3 : has g w3).
  { intros l0 c0 H0. cbn. rewrite (close_away _ _ _ _ (eq_ind_r absolute Hc Hcwd2) Hwfd Hcd).
    - rewrite L2. cbn. auto.
    - intros Hgt. rewrite Hmd2, Hsm2, Hcwd2. destruct (Hwg _ _ H0) as (r1 & -> & Hh). apply Hne; [congruence|assumption]. }
  destruct (L3 m m w3) as (w4 & V1 & _); [lia|lia|assumption|assumption|].
  exists t, o2, w3, w4. split; [|split; [|exact V1]].
  - intros w0. specialize (St m m w0 Hnm). destruct Ho1 as [[-> _]|(-> & _ & Hsto)]; [assumption|].
    unfold fresh_record in St. rewrite view_rec in St by assumption. assumption.
  - rewrite load_eq by (rewrite Hcwd2; assumption). cbn zeta. fold i2. rewrite Hjat. change (mkWorld _ _ _ _ _) with w1.
    rewrite mbind_run. unfold m_exists. rewrite op_free by assumption. cbn [logged w_fs].
    assert (Hex : exists_at (w_fs w1) l = true) by (unfold exists_at; change (w_fs w1) with (w_fs w2); rewrite Hlk; reflexivity).
    rewrite Hex. rewrite mbind_run, mbind_run. unfold m_read. rewrite op_free by assumption. cbn [logged w_fs].
    change (w_fs w1) with (w_fs w2). rewrite Hlk.
    change (of_json (to_json (s_float E) j)) with (through_json (s_float E) j). rewrite through_json_ready by assumption.
    match goal with |- context [deserialize E2 m (Some (mkCtx i2 [])) j ?x] => change x with wl end. unfold deserialize. rewrite L1. rewrite mbind_run. unfold close_context. rewrite op_free by assumption.
    cbn [logged c_mnt w_mounts w_fs]. rewrite Hmd1, Hcd. reflexivity.
Qed.
(** When [save] of a model built in memory returns, a later run that loads the key sees the same model.  The key is one
    ordinary name; the .gitignore of the key is not written among the files of the model. *)
Theorem C45_round_trip : forall E E2 n m p k o w o' j w' w2,
  absolute (s_cwd E) -> absolute (o_base p) -> same_code E E2 -> registered_classes E -> ordinary_uuids E -> faithful_methods E ->
  s_limit E2 = None -> s_retouch E = $"auto" \/ s_retouch E = $"quit" -> s_validate E = true ->
  plain k -> k <> $".gitignore" ->
  well_formed (w_fs w) -> built E o -> n < m ->
  save E n p k o w = (Ok (o', j), w') -> (forall l, own_ignore E p k l -> ~ happened w w' (EvWrite l)) -> w_fs w2 = w_fs w' ->
  exists t o2 w3 w4, (forall w0, view E m m o w0 = (Ok t, w0)) /\
    load E2 m p k None None w2 = (Ok o2, w3) /\ view E2 m m o2 w3 = (Ok t, w4).
Proof.
  intros E E2 n m p k o w o' j w' w2 Hc Hb Hsame Hreg Huid Hfai Hlim Hret Hval Hk Hgi Hw Hbu Hnm H Hcl Hw2.
  eapply files_round_trip with (E := E); try eassumption; [|intros l _; rewrite Hw2; reflexivity|intros _; cbn zeta; rewrite Hw2; reflexivity].
  rewrite Hw2. pose proof (save_traced E Hc n p k o w Hw) as (new & _ & _ & Hx & _). rewrite H in Hx. apply Hx. exact Hw.
Qed.

(** ** C43 *)
(** Whatever a modelclass instance built in memory holds in its serialized fields is there again after serializing it in a
    context, writing the result as json, and deserializing in another run on the same files. *)
Theorem C43_modelclass_round_trip : forall E E2 n m cx dir comps c fs w o' p w',
  absolute (s_cwd E) -> absolute dir -> same_code E E2 -> registered_classes E -> ordinary_uuids E -> faithful_methods E ->
  s_limit E2 = None -> s_retouch E = $"auto" \/ s_retouch E = $"quit" -> s_validate E = true ->
  well_formed (w_fs w) -> context_at E w cx dir comps -> built E (OModel c fs []) -> n < m ->
  serialize E n (Some cx) (OModel c fs []) w = (Ok (o', p), w') ->
  exists t o2 w2 w3, (forall w0, view E m m (OModel c fs []) w0 = (Ok (TModel c t), w0)) /\
    deserialize E2 m (Some cx) (through_json (s_float E) p) w' = (Ok o2, w2) /\ view E2 m m o2 w2 = (Ok (TModel c t), w3).
Proof.
  intros E E2 n m cx dir comps c fs w o' p w' Hc Hdir Hsame Hreg Huid Hfai Hlim Hret Hval Hw Hcx Hbu Hnm H.
  destruct (context_at_ok E w cx dir comps Hc Hdir Hw Hcx) as [Hok Hsc].
  pose proof (ser_saved E E2 (c_mnt cx) dir Hc Hdir Hret Hval Hreg Huid Hfai Hsame Hlim n (OModel c fs []) false comps cx w o' p w' Hbu) as HSv.
  destruct HSv as (Sg & Sok & Sj & _ & t & St & SL); [discriminate|assumption|assumption|exact H|]. cbn iota in SL.
  assert (Hg : has (fresh E (c_mnt cx) dir w w') w') by (intros l0 c0 (_ & _ & H0); exact H0).
  destruct (SL m (c_mnt cx) cx w') as (o2 & w2 & L1 & L2 & L3 & _); [lia|assumption|assumption|assumption|].
  destruct (L3 m m w2) as (w3 & V1 & _); [lia|lia|eapply quiet_ok; eassumption|eapply quiet_has; eassumption|].
  assert (Ht : exists ts, t = TModel c ts).
  { specialize (St m m w Hnm). destruct m as [|m]; [lia|]. cbn [view content_of] in St. rewrite mbind_run in St. unfold ret at 1 in St. cbn [fst] in St.
    inversion Hbu as [| | | |c0 fs0 fds Hk _ _| | |]; subst. rewrite Hk in St. apply mbind_ok in St as (ts & wx & _ & St). unfold ret in St. injection St as <- _. eauto. }
  destruct Ht as [ts ->]. exists ts, o2, w2, w3. split; [intros w0; apply St; assumption|]. split; [|exact V1].
  rewrite through_json_ready by assumption. exact L1.
Qed.
(** Only None is special: it is not written, and reading takes the default of the field. *)
Lemma none_unwritten F cx f : forall fds fs w fs' d w', In f fds -> NoDup (map mf_name fds) -> assoc (mf_name f) fs = Some (OAtom ANone) ->
  ser_fields_m F cx fds fs w = (Ok (fs', d), w') -> assoc_a (AStr (mf_name f)) d = None.
Proof.
  assert (Hgen : forall fds fs w fs' d w', NoDup (map mf_name fds) -> assoc (mf_name f) fs = Some (OAtom ANone) ->
    ser_fields_m F cx fds fs w = (Ok (fs', d), w') -> assoc_a (AStr (mf_name f)) d = None).
  { induction fds as [|g fds IH]; intros fs w fs' d w' Hnd Ha H; [injection H as _ <- _; reflexivity|]. cbn [map] in Hnd. inversion Hnd as [|? ? N1 N2]; subst.
    cbn [ser_fields_m] in H. destruct (mf_noser g); [eapply IH; eassumption|]. destruct (assoc (mf_name g) fs) as [v|] eqn:Eg; [|discriminate].
    assert (Hcase : v = OAtom ANone /\ ser_fields_m F cx fds fs w = (Ok (fs', d), w') \/ (v <> OAtom ANone /\
       (x <- f_ser F cx false v;; y <- ser_fields_m F cx fds (assoc_set (mf_name g) (fst x) fs);; ret (fst y, (AStr (mf_name g), snd x) :: snd y)) w = (Ok (fs', d), w'))).
    { destruct v as [[| | | |]|l|dd|c x|c x u|q x u|q x u|? ? ? ? ?|? ? ? ?|?|?]; try (right; split; [discriminate|exact H]). left. auto. }
    destruct Hcase as [[-> H']|[Hn H']]; [eapply IH; eassumption|].
    apply mbind_ok in H' as ([o1 p1] & w1 & H1 & H'). apply mbind_ok in H' as ([fs1 d1] & w2 & H2 & H'). unfold ret in H'. cbn [fst snd] in *. injection H' as _ <- _.
    assert (Hne : mf_name g <> mf_name f) by (intros Hx; rewrite Hx in Eg; congruence).
    cbn [assoc_a]. destruct (atom_eq_dec _ _) as [Hx|_]; [injection Hx as Hx; congruence|].
    eapply IH; [assumption| |exact H2]. rewrite assoc_set_other by congruence. assumption. }
  intros fds fs w fs' d w' _. apply Hgen.
Qed.
Lemma default_read E F cx f d v : forall fds w fs w', In f fds -> NoDup (map mf_name fds) -> assoc_a (AStr (mf_name f)) d = None -> mf_default f = Some v ->
  de_fields E F cx fds d w = (Ok fs, w') -> assoc (mf_name f) fs = Some (wrap_new E f v).
Proof.
  induction fds as [|g fds IH]; intros w fs w' Hi Hnd Ha Hd H; [contradiction|]. cbn [map] in Hnd. inversion Hnd as [|? ? N1 N2]; subst.
  cbn [de_fields] in H. apply mbind_ok in H as (x & w1 & H1 & H). apply mbind_ok in H as (rest & w2 & H2 & H). unfold ret in H. injection H as <- _.
  cbn [assoc]. destruct Hi as [->|Hi].
  - rewrite Ha, Hd in H1. unfold ret in H1. injection H1 as <- _. destruct (str_eq_dec (mf_name f) (mf_name f)); congruence.
  - destruct (str_eq_dec _ _) as [Hx|_]; [|eapply IH; eassumption]. exfalso. apply N1. rewrite <- Hx || rewrite Hx. apply in_map. assumption.
Qed.
Theorem C43_none_takes_default : forall E E2 n m cx cx2 c fs fds f v u w o' p w' w2 fs2 u2 w3,
  s_validate E = true -> registered_classes E -> same_code E E2 ->
  k_kind (s_class E c) = SModel fds -> NoDup (map mf_name fds) ->
  In f fds -> mf_noser f = false -> assoc (mf_name f) fs = Some (OAtom ANone) -> mf_default f = Some v ->
  serialize E n (Some cx) (OModel c fs u) w = (Ok (o', p), w') ->
  deserialize E2 m (Some cx2) p w2 = (Ok (OModel c fs2 u2), w3) ->
  exists x, assoc (mf_name f) fs2 = Some x /\ (x = v \/ exists t pre, mf_wrap f = Some (t, pre) /\ x = ORec v t pre None None).
Proof.
  intros E E2 n m cx cx2 c fs fds f v u w o' p w' w2 fs2 u2 w3 Hval Hreg Hsame Hk Hnd Hin Hno Ha Hd H H2.
  destruct n as [|n]; [discriminate|]. unfold serialize in H. cbn [depth f_ser] in H.
  destruct (k_ser (s_class E c)) as [nm|] eqn:En.
  2:{ exfalso. cbn [ser_body ser_method] in H. rewrite En in H. apply mbind_ok in H as (x & w1 & H1 & _). apply invalid_ok in H1 as [_ Hv]. congruence. }
  pose proof Hreg as [Hr _]. specialize (Hr c fds nm Hk En).
  assert (Hm : ser_method E (depth E n) (Some cx) (OModel c fs u) = Some (nm, ser_model E (depth E n) (Some cx) c fds fs u)) by (cbn [ser_method]; rewrite En, Hr, Hk; reflexivity).
  eapply (run_method E Hval n cx false) in H as (q & H & Hp); [|discriminate|discriminate|discriminate|exact Hm]. subst p.
  unfold ser_model in H. apply mbind_ok in H as (u1 & w1 & _ & H). apply mbind_ok in H as ([fs1 d] & w4 & H & H'). unfold ret in H'. cbn [fst snd] in H'. injection H' as _ <- _.
  apply none_unwritten with (f := f) in H; try assumption.
  unfold emit in H2. cbn [fst snd] in H2. unfold deserialize in H2. destruct m as [|m]; [discriminate|].
  assert (Hr2 : ser_ty E2 nm = Some (DModel c)) by (rewrite (ser_ty_same E E2 Hsame); assumption).
  rewrite (f_de_typed E2 m cx2 (DModel c) nm d w2 Hr2) in H2. cbn [depth f_de] in H2. unfold de_body in H2.
  apply mbind_ok in H2 as (o2 & w5 & H2 & H3). unfold de_object in H2. apply mbind_ok in H2 as (r & w6 & H4 & H2). apply attempt_ok in H4.
  assert (Hf : r = Ok (OModel c fs2 u2)).
  { destruct r as [o3|e]; [unfold ret in H2; injection H2 as <- <-|destruct (is_ser_error e); [discriminate|unfold ret in H2; injection H2 as <- <-]].
    - destruct o3; try (unfold ret in H3; injection H3 as <- <-; reflexivity); try (unfold ret in H3; injection H3; congruence).
      apply mbind_ok in H3 as (x & wx & _ & H3). unfold ret in H3. injection H3; congruence.
    - apply mbind_ok in H3 as (x & wx & _ & H3). discriminate H3. }
  subst r. unfold de_model in H4. destruct Hsame as (Hs1 & _). rewrite Hs1, Hk in H4. apply mbind_ok in H4 as (fs3 & w7 & H4 & H5). unfold ret in H5. injection H5 as <- _ _.
  eapply default_read in H4; [|exact Hin|exact Hnd|exact H|exact Hd]. exists (wrap_new E2 f v). split; [assumption|].
  unfold wrap_new. destruct (mf_wrap f) as [[t pre]|]; [|left; reflexivity]. destruct (is_storable E2 v); [right; eauto|left; reflexivity].
Qed.

(** ** An installation for the examples *)
(** As in [StoreExample.v], with no further classes. *)
Definition rt_env : senv :=
  let E := ex_env "auto" true None in
  mkSenv (fun c => match c with 0 | 1 => ex_class c | _ => mkSClass (SModel []) None None end) (s_ser E) (s_sto E) (s_write E) (s_read E) (s_uuid E)
    (s_float E) (s_cwd E) (s_retouch E) (s_validate E) (s_clean E) (s_suffix E) (s_limit E).
Example rt_registered : registered_classes rt_env /\ faithful_methods rt_env.
Proof.
  split; [split|].
  - intros [|[|c]] fds n Hk Hn; cbn in *; try discriminate. injection Hn as <-. reflexivity.
  - intros [|[|c]] n Hn; cbn in *; try discriminate; injection Hn as <-; reflexivity.
  - intros c k d left H. cbn in H. injection H as <-. exists (Text d). split; reflexivity.
Qed.
Lemma plain_named pre k su : pre <> [] -> (forall x, In x pre -> x <> ("."%char : ascii) /\ x <> sep) -> ~ In sep su ->
  plain (pre ++ str_of_N k ++ su).
Proof.
  intros Hp Hx Hs. destruct pre as [|x pre]; [congruence|].
  destruct (Hx x (or_introl eq_refl)) as [Hx1 Hx2].
  assert (Hn : ~ In sep (str_of_N k)).
  { intros Hi. pose proof (str_of_N_digits k) as Hd. unfold digits in Hd. rewrite Forall_forall in Hd. specialize (Hd _ Hi). discriminate Hd. }
  repeat split.
  - discriminate.
  - intros H. apply (f_equal (hd x)) in H. cbn in H. congruence.
  - intros H. apply (f_equal (hd x)) in H. cbn in H. congruence.
  - intros H. apply in_app_or in H as [H|H]; [destruct (Hx _ H) as [_ Hc]; apply Hc; reflexivity|]. apply in_app_or in H as [H|H]; [apply Hn, H|apply Hs, H].
Qed.
Example rt_uuids : ordinary_uuids rt_env.
Proof.
  intros k content su H. unfold rt_env. cbn [s_uuid]. unfold ex_env. cbn [s_uuid]. rewrite <- app_assoc. apply plain_named.
  - discriminate.
  - intros x Hx. cbn in Hx. repeat destruct Hx as [<-|Hx]; try (split; discriminate). contradiction.
  - assert (Hsu : su = $".bin" \/ su = $".json").
    { inversion H as [c d j x Hk|c d Hk|c d Hk| | |]; subst; auto; destruct c as [|[|c]]; cbn in Hk; try discriminate Hk.
      left. vm_compute. congruence. }
    destruct Hsu as [-> | ->]; cbn; intros Hx; repeat destruct Hx as [Hx|Hx]; try discriminate; contradiction.
Qed.
Lemma stem_ordinary o st pre : plain (($st) ++ $".bin") -> plain (($st) ++ $".json") -> built rt_env o -> built rt_env (ORec o (mkTarget (Some []) (Some ($st)) None) pre None None).
Proof.
  intros H1 H2 Hb. apply b_rec; [assumption|]. intros sd s su Hsd Hs Hsu. cbn in Hsd, Hs, Hsu.
  destruct Hsd as [Hsd|[Hsd _]]; [|discriminate]. destruct Hs as [Hs|[Hs _]]; [|discriminate]. destruct Hsu as [Hsu|[_ Hsu]]; [discriminate|].
  injection Hsd as <-. assert (s = $st) by congruence. subst s.
  split; [|split; [intros [r Hx]; discriminate|intros Hx; cbn in Hx; destruct Hx as [Hx|[]]; discriminate]].
  inversion Hsu as [c d j x Hk|c d Hk|c d Hk| | |]; subst; try assumption; destruct c as [|[|c]]; cbn in Hk; try discriminate Hk.
  assert (su = $".bin") by (vm_compute; congruence). subst su. assumption.
Qed.
Example rt_built : built rt_env ex_model.
Proof.
  assert (Hbl : forall d, built rt_env (OLeaf 0 d)) by (intros d; eapply b_leaf; reflexivity).
  unfold ex_model. eapply b_model; [reflexivity| |].
  - cbn. repeat (apply NoDup_cons; [intros Hx; cbn in Hx; repeat destruct Hx as [Hx|Hx]; try discriminate; contradiction|]). apply NoDup_nil.
  - intros f v Hf Hno Ha. cbn in Hf. destruct Hf as [<-|[<-|[<-|[]]]]; [| |discriminate Hno]; vm_compute in Ha; injection Ha as <-; (split; [|discriminate]).
    + apply b_list. intros x [<-|[<-|[]]]; [apply b_atom|apply Hbl].
    + apply (stem_ordinary _ "data"); [| |].
      1,2: repeat split; try discriminate; cbn; intros Hx; repeat destruct Hx as [Hx|Hx]; try discriminate; contradiction.
      apply b_seq. intros x [<-|[<-|[]]]; apply (stem_ordinary _ "x"); try apply Hbl;
        repeat split; try discriminate; cbn; intros Hx; repeat destruct Hx as [Hx|Hx]; try discriminate; contradiction.
Qed.
(** The records of [ex_model] collide; its second "x" goes to x0.bin.  Loaded in a later run with other uuids. *)
Definition rt_later : senv :=
  mkSenv (s_class rt_env) (s_ser rt_env) (s_sto rt_env) (s_write rt_env) (s_read rt_env) (fun k => $"other" ++ str_of_N (N.of_nat k))
    (s_float rt_env) (s_cwd rt_env) ($"ignore") false true (s_suffix rt_env) None.
Example C45_example :
  absolute (s_cwd rt_env) /\ absolute (o_base ex_opts) /\ same_code rt_env rt_later /\ registered_classes rt_env /\ ordinary_uuids rt_env /\
  faithful_methods rt_env /\ s_limit rt_later = None /\ s_retouch rt_env = $"auto" /\ s_validate rt_env = true /\ plain ($"new") /\
  well_formed (w_fs ex_world) /\ built rt_env ex_model /\
  exists o' j w' o2 w3, save rt_env 10 ex_opts ($"new") ex_model ex_world = (Ok (o', j), w') /\
    file_at (w_fs w') [$"proj"; $".dman"; $"gen"; $"new"; $"x0.bin"] = Some (Text ($"two")) /\
    load rt_later 11 ex_opts ($"new") None None (mkWorld (w_fs w') [] [] 0 []) = (Ok o2, w3) /\
    fst (view rt_later 11 11 o2 w3) =
      Ok (TModel 1 [($"name", TList [TAtom (AInt 3); TLeaf 0 ($"raw")]);
                    ($"data", TSeq (mkSeq true [] false None) [TLeaf 0 ($"one"); TLeaf 0 ($"two")])]).
Proof.
  destruct rt_registered as [H1 H2]. pose proof rt_uuids as H3. pose proof rt_built as H4.
  split; [eexists; reflexivity|]. split; [eexists; reflexivity|]. split; [repeat split|]. repeat (split; [assumption|]). repeat (split; [reflexivity|]).
  split; [repeat split; try discriminate; cbn; intros Hx; repeat destruct Hx as [Hx|Hx]; try discriminate; contradiction|].
  split; [cbn; repeat constructor; cbn; tauto|]. split; [assumption|].
  let v := eval vm_compute in (save rt_env 10 ex_opts ($"new") ex_model ex_world) in
  match v with (Ok (?o, ?j), ?w') => 
    exists o, j, w';
    let x := eval vm_compute in (load rt_later 11 ex_opts ($"new") None None (mkWorld (w_fs w') [] [] 0 [])) in
    match x with (Ok ?o2, ?w3) => exists o2, w3 end
  end.
  split; [vm_compute; reflexivity|]. split; [vm_compute; reflexivity|]. split; vm_compute; reflexivity.
Qed.
Example C43_example :
  let w := snd (open_context ex_opts ($"k") ex_world) in let cx := mkCtx 0 [] in
  context_at rt_env w cx ($"/proj/.dman/gen/k") [] /\ well_formed (w_fs w) /\ built rt_env ex_model /\
  exists o' p w', serialize rt_env 10 (Some cx) ex_model w = (Ok (o', p), w') /\
    fst (deserialize rt_later 11 (Some cx) (through_json (s_float rt_env) p) w') <> Ok ex_model.
Proof.
  cbn zeta. split; [|split; [cbn; repeat constructor; cbn; tauto|split; [apply rt_built|]]].
  - eexists. split; [reflexivity|]. split; [exists ex_fs, true, true, [], ex_fs; split; [constructor|reflexivity]|split; [reflexivity|constructor]].
  - let v := eval vm_compute in (serialize rt_env 10 (Some (mkCtx 0 [])) ex_model (snd (open_context ex_opts ($"k") ex_world))) in
    match v with (Ok (?o, ?p), ?w') => exists o, p, w' end. split; [vm_compute; reflexivity|]. vm_compute. discriminate.
Qed.
(** A field with default 5 that holds None. *)
Definition rt_default : senv :=
  mkSenv (fun c => match c with 1 => mkSClass (SModel [mkMField ($"a") None false (Some (OAtom (AInt 5)))]) (Some ($"_ser__pair")) (Some ($"_sto__pair")) | _ => s_class rt_env c end)
    (s_ser rt_env) (s_sto rt_env) (s_write rt_env) (s_read rt_env) (s_uuid rt_env)
    (s_float rt_env) (s_cwd rt_env) (s_retouch rt_env) (s_validate rt_env) (s_clean rt_env) (s_suffix rt_env) (s_limit rt_env).
Example C43_none_example :
  registered_classes rt_default /\ same_code rt_default rt_default /\
  exists o' p w' w3, serialize rt_default 3 (Some (mkCtx 0 [])) (OModel 1 [($"a", OAtom ANone)] []) ex_world = (Ok (o', p), w') /\
    deserialize rt_default 3 (Some (mkCtx 0 [])) p w' = (Ok (OModel 1 [($"a", OAtom (AInt 5))] []), w3).
Proof.
  split; [|split; [repeat split|]].
  - split.
    + intros [|[|c]] fds n Hk Hn; cbn in *; try discriminate. injection Hn as <-. reflexivity.
    + intros [|[|c]] n Hn; cbn in *; try discriminate; injection Hn as <-; reflexivity.
  - let v := eval vm_compute in (serialize rt_default 3 (Some (mkCtx 0 [])) (OModel 1 [($"a", OAtom ANone)] []) ex_world) in
    match v with (Ok (?o, ?p), ?w') => exists o, p, w', w' end. split; vm_compute; reflexivity.
Qed.

Print Assumptions C45_round_trip.
Print Assumptions C43_modelclass_round_trip.
Print Assumptions C43_none_takes_default.
