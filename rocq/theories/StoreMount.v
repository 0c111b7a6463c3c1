(** What the operations of a mount do when they are reached through a [Context]. *)
From Coq Require Import List Ascii String Bool Arith ZArith Lia.
From Verif Require Import Base PosixModel FsModel PathModel SerialModel StoreModel PathSpec MountSpec DirSpec
     PosixProof FsProof DirProof TargetProof MountProof HistoryProof PathFacts.
Import ListNotations.

(** * Directory listings stay duplicate free *)
Lemma assoc_set_keys {A} k (v : A) l : NoDup (map fst l) -> NoDup (map fst (assoc_set k v l)).
Proof.
  induction l as [|[x y] l IH]; cbn; intros H.
  - constructor; [intros []|constructor].
  - inversion H as [|a b H1 H2]; subst. destruct (str_eq_dec x k) as [->|Hn]; cbn; [assumption|].
    constructor; [|auto]. intros Hi. apply H1. clear - Hi Hn.
    induction l as [|[z u] l IH]; cbn in *; [destruct Hi as [->|[]]; congruence|].
    destruct (str_eq_dec z k) as [->|]; cbn in *; [assumption|]. destruct Hi; auto.
Qed.
Lemma assoc_set_Forall {A} (P : A -> Prop) k v l :
  P v -> Forall (fun e => P (snd e)) l -> Forall (fun e : str * A => P (snd e)) (assoc_set k v l).
Proof.
  intros Hv. induction l as [|[x y] l IH]; cbn; intros H; [repeat constructor; assumption|].
  inversion H; subst. destruct (str_eq_dec x k); constructor; auto.
Qed.
Lemma assoc_del_keys {A} k (l : list (str * A)) : NoDup (map fst l) -> NoDup (map fst (assoc_del k l)).
Proof.
  induction l as [|[x y] l IH]; cbn; intros H; [constructor|]. inversion H as [|a b H1 H2]; subst.
  destruct (str_eq_dec x k) as [->|Hn]; [auto|]. cbn. constructor; [|auto]. intros Hi. apply H1. clear - Hi.
  induction l as [|[z u] l IH]; cbn in *; [assumption|]. destruct (str_eq_dec z k); cbn in *; [auto|]. destruct Hi; auto.
Qed.
Lemma assoc_del_Forall {A} (P : A -> Prop) k l :
  Forall (fun e => P (snd e)) l -> Forall (fun e : str * A => P (snd e)) (assoc_del k l).
Proof.
  induction l as [|[x y] l IH]; cbn; intros H; [constructor|]. inversion H; subst. destruct (str_eq_dec x k); auto.
Qed.
Lemma wf_iff es : well_formed (Dir es) <-> NoDup (map fst es) /\ Forall (fun e => well_formed (snd e)) es.
Proof. rewrite wf_dir, wf_entries_Forall. tauto. Qed.
Lemma wf_assoc es x m : well_formed (Dir es) -> assoc x es = Some m -> well_formed m.
Proof. intros H Ha. apply wf_iff in H as [_ H]. apply assoc_In in Ha. rewrite Forall_forall in H. exact (H _ Ha). Qed.
Lemma wf_set es x m : well_formed (Dir es) -> well_formed m -> well_formed (Dir (assoc_set x m es)).
Proof.
  intros H Hm. apply wf_iff in H as [H1 H2]. apply wf_iff.
  split; [apply assoc_set_keys; assumption|apply assoc_set_Forall; assumption].
Qed.
Lemma write_file_wf l : forall n c n', write_file n l c = Ok n' -> well_formed n -> well_formed n'.
Proof.
  induction l as [|x r IH]; intros n c n' H Hw; [discriminate|]. cbn [write_file] in H.
  destruct n as [c0|es]; [discriminate|]. destruct r as [|y r].
  - assert (Hg : well_formed (Dir (assoc_set x (File c) es))) by (apply wf_set; [assumption|exact I]).
    destruct (assoc x es) as [[|]|]; inversion H; subst; exact Hg.
  - destruct (assoc x es) as [m|] eqn:E; [|discriminate]. destruct (write_file m (y :: r) c) as [m'|] eqn:E2; [|discriminate].
    inversion H; subst. apply wf_set; [assumption|]. eapply IH; [eassumption|]. eapply wf_assoc; eassumption.
Qed.
Lemma makedirs_wf l : forall n n', makedirs n l = Ok n' -> well_formed n -> well_formed n'.
Proof.
  induction l as [|x r IH]; intros n n' H Hw; cbn [makedirs] in H.
  - destruct n; inversion H; subst; assumption.
  - destruct n as [c0|es]; [discriminate|]. destruct (makedirs _ r) as [m'|] eqn:E; [|discriminate]. inversion H; subst.
    apply wf_set; [assumption|]. eapply IH; [eassumption|]. destruct (assoc x es) as [m|] eqn:E2; [eapply wf_assoc; eassumption|].
    apply wf_iff. split; constructor.
Qed.
Lemma delete_at_wf l : forall n, well_formed n -> well_formed (delete_at n l).
Proof.
  induction l as [|x r IH]; intros n Hw; cbn [delete_at]; [assumption|]. destruct n as [c|es]; [assumption|].
  destruct r as [|y r].
  - apply wf_iff in Hw as [H1 H2]. apply wf_iff. split; [apply assoc_del_keys|apply assoc_del_Forall]; assumption.
  - destruct (assoc x es) as [m|] eqn:E; [|assumption]. apply wf_set; [assumption|]. apply IH. eapply wf_assoc; eassumption.
Qed.
Lemma replace_at_wf l : forall n m, well_formed n -> well_formed m -> well_formed (replace_at n l m).
Proof.
  induction l as [|x r IH]; intros n m Hw Hm; cbn [replace_at]; [assumption|]. destruct n as [c|es]; [assumption|].
  destruct (assoc x es) as [k|] eqn:E; [|assumption]. apply wf_set; [assumption|]. apply IH; [eapply wf_assoc; eassumption|assumption].
Qed.
Lemma prune_wf : forall n, well_formed n -> well_formed (snd (prune n)).
Proof.
  fix IH 1. intros [c|es] Hw; [exact I|]. rewrite prune_dir. cbn [snd]. apply wf_iff in Hw as [H1 H2]. apply wf_iff. split.
  - clear IH H2. induction es as [|[x m] es IHes]; cbn; [constructor|]. inversion H1 as [|a b H3 H4]; subst.
    destruct (prune m) as [k m']. destruct k; [|auto]. cbn. constructor; [|auto]. intros Hi. apply H3. clear - Hi.
    induction es as [|[z u] es IH]; cbn in *; [assumption|]. destruct (prune u) as [k m'']. destruct k; cbn in *; [destruct Hi; auto|auto].
  - clear H1. induction es as [|[x m] es IHes]; cbn; [constructor|]. inversion H2 as [|a b H3 H4]; subst. cbn in H3.
    specialize (IH m H3). destruct (prune m) as [k m']. destruct k; [|auto]. constructor; [exact IH|auto].
Qed.
Lemma prune_directories_wf fs l : well_formed fs -> well_formed (prune_directories fs l).
Proof.
  intros H. unfold prune_directories. destruct (lookup fs l) as [n|] eqn:E; [|assumption].
  apply replace_at_wf; [assumption|]. apply prune_wf. eapply lookup_wf; eassumption.
Qed.
Lemma gitignore_gen_wf cwd fs dir ig ck fs' : gitignore_gen cwd fs dir ig ck = Ok fs' -> well_formed fs -> well_formed fs'.
Proof.
  intros H Hw. unfold gitignore_gen in H.
  match type of H with bind ?x _ = _ => destruct x as [orig|e]; [|discriminate] end. cbn [bind] in H.
  match type of H with match ?x with _ => _ end = _ => destruct x as [|a [|b r]] end;
    try (eapply write_file_wf; eassumption).
  unfold os_remove in H. destruct (lookup _ _) as [[|]|]; inversion H; subst. apply delete_at_wf; assumption.
Qed.
Lemma mount_close_wf cwd fs m fs' : mount_close cwd fs m = Ok fs' -> well_formed fs -> well_formed fs'.
Proof.
  intros H Hw. unfold mount_close in H. pose proof (prune_directories_wf fs (os_loc cwd (m_dir m)) Hw) as Hp.
  destruct (negb (m_gitignore m)); [inversion H; subst; assumption|].
  destruct (flat_map _ _) in H; [inversion H; subst; assumption|].
  destruct (m_cluster m).
  - destruct (path_split (m_dir m)). eapply gitignore_gen_wf; eassumption.
  - eapply gitignore_gen_wf; eassumption.
Qed.
Lemma prepare_wf cwd conf fs m path v ch inp r fs' m' inp' :
  prepare cwd conf fs m path v ch inp = (r, (fs', m', inp')) -> well_formed fs -> well_formed fs'.
Proof.
  intros H Hw. unfold prepare in H. destruct (normalize _ _ _ _); [|inversion H; subst; assumption].
  destruct (register _ _ _ _ _) as [[[t' tt'] i']|]; [|inversion H; subst; assumption].
  destruct (t_subdir t'); [|inversion H; subst; assumption]. destruct (is_dir _ _); [inversion H; subst; assumption|].
  destruct (makedirs _ _) eqn:Em; inversion H; subst; [|assumption]. eapply makedirs_wf; eassumption.
Qed.
Lemma mount_remove_wf cwd fs m path v r fs' m' :
  mount_remove cwd fs m path v = (r, (fs', m')) -> well_formed fs -> well_formed fs'.
Proof.
  intros H Hw. unfold mount_remove in H. destruct (untrack _ _ _ _); [|inversion H; subst; assumption].
  destruct (lookup _ _) as [[|[|]]|]; inversion H; subst; try assumption; apply delete_at_wf; assumption.
Qed.

(** * Sub directories and names *)
Lemma isabs_nil : isabs [] = false. Proof. reflexivity. Qed.
Lemma join2_nil_l b : join2 [] b = b.
Proof. unfold join2. destruct (isabs b); reflexivity. Qed.
Lemma rel_target_name t rest : rel_target t rest ->
  t_name t = Ok (match rest with [] => dot | _ => last rest [] end).
Proof.
  intros (Hc & (sd & st & su & -> & Hs) & Hf & Hd). cbn in Hd. inversion Hd; subst sd. clear Hd.
  unfold fspath in Hf. cbn in Hf. injection Hf as Hf. unfold t_name. cbn. f_equal.
  destruct rest as [|x r] eqn:Er.
  - rewrite join2_nil_l in Hf. exact Hf.
  - rewrite <- Er in *. assert (Hne : rest <> []) by (rewrite Er; discriminate). clear Er x r.
    destruct (exists_last Hne) as (l & n & ->). rewrite last_last. rewrite removelast_last in Hf.
    assert (Hr : relstr (l ++ [n]) = join_sep (l ++ [n])) by (destruct (l ++ [n]); [congruence|reflexivity]). rewrite Hr in Hf.
    pose proof Hc as Hc0. apply Forall_app in Hc as [Hcl Hcn].
    pose proof Hf as Hf0. unfold join2 in Hf. destruct (isabs (st ++ su)) eqn:Ea.
    { rewrite Hf in Ea. rewrite isabs_join_clean in Ea; [discriminate|assumption]. }
    destruct l as [|y l'].
    + cbn [join_sep app] in Hf0. rewrite join2_nil_l in Hf0. exact Hf0.
    + rewrite join_sep_ends in Hf by assumption. rewrite join_sep_snoc in Hf by discriminate.
      destruct (join_sep (y :: l')) as [|c s] eqn:Ej; [|apply app_inv_head in Hf; injection Hf as Hf; exact Hf].
      exfalso. inversion Hcl as [|? ? Ha _]; subst. destruct Ha as (Ha & _).
      destruct l'; cbn in Ej; [congruence|]. destruct y; [congruence|discriminate].
Qed.

Definition last_ok (n : str) : Prop := clean n \/ n = dot.
Definition last_comp (n : str) : list str := if str_eq_dec n dot then [] else [n].
Lemma last_rel rest : Forall clean rest ->
  let n := match rest with [] => dot | _ => last rest [] end in
  last_ok n /\ removelast rest ++ last_comp n = rest.
Proof.
  intros Hc. destruct rest as [|x r] eqn:E; cbn zeta.
  - split; [right; reflexivity|]. unfold last_comp. destruct (str_eq_dec dot dot); [reflexivity|congruence].
  - rewrite <- E in *. assert (Hne : rest <> []) by (rewrite E; discriminate).
    assert (Hn : clean (last rest [])).
    { rewrite (app_removelast_last [] Hne) in Hc. apply Forall_app in Hc as [_ Hc]. inversion Hc; assumption. }
    split; [left; assumption|]. unfold last_comp. destruct (str_eq_dec _ dot) as [Ed|]; [destruct Hn as (_ & Hn & _); congruence|].
    symmetry. apply app_removelast_last. assumption.
Qed.

(** A context whose sub directory is made of ordinary names. *)
Definition sctx (i : nat) (comps : list str) (cx : ctx) : Prop :=
  c_mnt cx = i /\ c_sub cx = join_sep comps /\ Forall clean comps.
Lemma location_sub cwd D comps : Forall clean comps -> location cwd (join2 D (join_sep comps)) = location cwd D ++ comps.
Proof.
  intros H. rewrite location_join2_any, isabs_join_clean by assumption. destruct comps as [|x r] eqn:E.
  - cbn. rewrite app_nil_r. reflexivity.
  - rewrite <- E in *. rewrite split_join; [apply walk_clean_app; assumption|apply clean_split; assumption|rewrite E; discriminate].
Qed.
Lemma join2_nil_r a : join2 a [] = match a with [] => [] | _ => if ends_sep a then a else a ++ [sep] end.
Proof. unfold join2. cbn [isabs]. destruct a; [reflexivity|]. destruct (ends_sep _); [apply app_nil_r|reflexivity]. Qed.
Lemma last_ok_noslash n : last_ok n -> noslash n.
Proof. intros [H| ->]; [apply H|]. intros [H|[]]. discriminate. Qed.
Lemma location_last cwd a n : last_ok n -> location cwd (join2 a n) = location cwd a ++ last_comp n.
Proof.
  intros H. unfold last_comp. destruct H as [H| ->].
  - rewrite location_snoc by assumption. destruct (str_eq_dec n dot) as [->|]; [destruct H as (_ & H & _); congruence|reflexivity].
  - rewrite location_join2_any. destruct (str_eq_dec dot dot); [|congruence]. rewrite app_nil_r. reflexivity.
Qed.

Section Paths.
Variable E : senv.
Hypothesis Hcwd : absolute (s_cwd E).

(** Where a name ends up in a context: record.py:239, 259. *)
Lemma join2_sub_name comps n : Forall clean comps -> last_ok n ->
  join2 (join2 (join_sep comps) []) n = join2 (join_sep comps) n.
Proof.
  intros Hc Hn. rewrite join2_nil_r. pose proof (join_sep_ends comps Hc) as He. destruct (join_sep comps) as [|c s] eqn:Ej; [reflexivity|].
  rewrite He. unfold join2. rewrite (noslash_not_isabs n (last_ok_noslash n Hn)). rewrite He.
  assert (Hs : ends_sep ((c :: s) ++ [sep]) = true).
  { clear. generalize (c :: s). intros l. unfold ends_sep. rewrite last_last || idtac. induction l as [|a l IH]; [reflexivity|]. cbn. destruct (l ++ [sep]) eqn:E; [destruct l; discriminate|]. exact IH. }
  cbn [app] in Hs |- *. rewrite Hs. rewrite <- app_assoc. reflexivity.
Qed.
Lemma ctx_path_loc i comps local nt n w m :
  sctx i comps local -> t_subdir nt = Some [] -> t_name nt = Ok n -> last_ok n ->
  nth_error (w_mounts w) i = Some m ->
  ctx_path E local nt w = (Ok (location (s_cwd E) (m_dir m) ++ comps ++ last_comp n), w).
Proof.
  intros (Hi & Hs & Hc) Hd Hn Hl Hm. unfold ctx_path, mbind, m_dir_of. rewrite Hi, Hm.
  destruct nt as [sd st su]. unfold t_name in Hn. cbn [t_subdir t_stem t_suffix] in Hd, Hn. subst sd.
  destruct st as [a|]; [|discriminate]. destruct su as [b|]; [|discriminate]. injection Hn as Hn.
  unfold ctx_absolute, lift. cbn [t_subdir update Target bind merge merge2 merge_part t_stem t_suffix fspath ret].
  rewrite Hn. unfold ret. f_equal. f_equal.
  rewrite Hs, join2_sub_name by assumption. rewrite os_loc_location by assumption.
  rewrite location_join2_any.
  assert (Ha : isabs (join2 (join_sep comps) n) = false).
  { unfold join2. rewrite (noslash_not_isabs n (last_ok_noslash n Hl)). pose proof (isabs_join_clean comps Hc) as Hj.
    destruct (join_sep comps) as [|c s] eqn:Ej; [apply noslash_not_isabs, last_ok_noslash; assumption|].
    destruct (ends_sep _); exact Hj. }
  rewrite Ha. pose proof (location_last (s_cwd E) (join2 (m_dir m) (join_sep comps)) n Hl) as H1.
  rewrite location_sub in H1 by assumption. rewrite <- app_assoc in H1.
  rewrite <- H1. rewrite location_join2_any. rewrite (noslash_not_isabs n (last_ok_noslash n Hl)).
  rewrite (location_sub _ _ _ Hc).
  unfold join2. rewrite (noslash_not_isabs n (last_ok_noslash n Hl)).
  destruct comps as [|x r] eqn:Ec.
  - cbn [join_sep]. rewrite app_nil_r. reflexivity.
  - rewrite <- Ec in *. assert (Hcn : comps <> []) by (rewrite Ec; discriminate).
    destruct (join_sep comps) as [|c s] eqn:Ej.
    { exfalso. rewrite Ec in Ej, Hc. inversion Hc as [|? ? Hx _]; subst. destruct Hx as (Hx & _). destruct x; [congruence|]. destruct r; discriminate. }
    rewrite <- Ej. rewrite join_sep_ends by assumption. rewrite split_app, walk_app.
    rewrite split_join; [|apply clean_split; assumption|assumption]. rewrite (walk_clean_app _ comps) by assumption. reflexivity.
Qed.
End Paths.

(** * Operations described *)
Definition logged (ev : event) (w : world) : world :=
  mkWorld (w_fs w) (w_mounts w) (w_inputs w) (w_uuid w) (ev :: w_log w).
Lemma op_cases {A} E ev (f : world -> res A * world) w r w' : op E ev f w = (r, w') ->
  (r = Exn Crash /\ w' = w /\ s_limit E <> None) \/ f (logged ev w) = (r, w').
Proof.
  unfold op. destruct (s_limit E) as [k|]; [|right; assumption]. destruct (_ <=? _); intros H; [|right; assumption].
  left. inversion H; subst. repeat split; discriminate.
Qed.
Lemma op_free {A} E ev (f : world -> res A * world) w : s_limit E = None -> op E ev f w = f (logged ev w).
Proof. intros H. unfold op. rewrite H. reflexivity. Qed.

Lemma set_nth_length {A} n (x : A) l : List.length (set_nth n x l) = List.length l.
Proof. revert n. induction l as [|y l IH]; intros [|n]; cbn; auto. Qed.
Lemma nth_set_nth {A} n (x : A) : forall l j, nth_error (set_nth n x l) j =
  if Nat.eq_dec j n then match nth_error l n with Some _ => Some x | None => None end else nth_error l j.
Proof.
  induction n as [|n IH]; intros [|y l] [|j]; cbn [set_nth nth_error]; try (destruct (Nat.eq_dec _ _); try lia; reflexivity).
  rewrite IH. destruct (Nat.eq_dec j n), (Nat.eq_dec (S j) (S n)); try lia; reflexivity.
Qed.

Inductive prepared_w (E : senv) (j : nat) (p : str) (ch : option str) (w : world) : res target -> world -> Prop :=
| pw_crash : s_limit E <> None -> prepared_w E j p ch w (Exn Crash) w
| pw_none : nth_error (w_mounts w) j = None -> prepared_w E j p ch w (Exn KeyError) (logged (EvPrepare j p) w)
| pw_some m r fs m' inp : nth_error (w_mounts w) j = Some m ->
    prepare (s_cwd E) (s_retouch E) (w_fs w) m p true ch (w_inputs w) = (r, (fs, m', inp)) ->
    prepared_w E j p ch w r (mkWorld fs (set_nth j m' (w_mounts w)) inp (w_uuid w) (EvPrepare j p :: w_log w)).
Lemma m_prepare_inv E j p ch w r w' : m_prepare E j p ch w = (r, w') -> prepared_w E j p ch w r w'.
Proof.
  intros H. unfold m_prepare in H. apply op_cases in H as [(-> & -> & Hl)|H]; [apply pw_crash; assumption|].
  cbn [logged w_mounts w_fs w_inputs w_uuid w_log] in H. destruct (nth_error (w_mounts w) j) as [m|] eqn:Em.
  - destruct (prepare _ _ _ _ _ _ _ _) as [r0 [[fs m'] inp]] eqn:Ep. inversion H; subst. eapply pw_some; eassumption.
  - inversion H; subst. apply pw_none; assumption.
Qed.
Inductive removed_w (E : senv) (j : nat) (p : str) (w : world) : res unit -> world -> Prop :=
| rw_crash : s_limit E <> None -> removed_w E j p w (Exn Crash) w
| rw_none : nth_error (w_mounts w) j = None -> removed_w E j p w (Exn KeyError) (logged (EvRemove j p) w)
| rw_some m r fs m' : nth_error (w_mounts w) j = Some m ->
    mount_remove (s_cwd E) (w_fs w) m p true = (r, (fs, m')) ->
    removed_w E j p w r (mkWorld fs (set_nth j m' (w_mounts w)) (w_inputs w) (w_uuid w) (EvRemove j p :: w_log w)).
Lemma m_remove_inv E j p w r w' : m_remove E j p w = (r, w') -> removed_w E j p w r w'.
Proof.
  intros H. unfold m_remove in H. apply op_cases in H as [(-> & -> & Hl)|H]; [apply rw_crash; assumption|].
  cbn [logged w_mounts w_fs w_inputs w_uuid w_log] in H. destruct (nth_error (w_mounts w) j) as [m|] eqn:Em.
  - destruct (mount_remove _ _ _ _ _) as [r0 [fs m']] eqn:Ep. inversion H; subst. eapply rw_some; eassumption.
  - inversion H; subst. apply rw_none; assumption.
Qed.
Inductive written_w (E : senv) (l : loc) (c : content) (w : world) : res unit -> world -> Prop :=
| ww_crash : s_limit E <> None -> written_w E l c w (Exn Crash) w
| ww_exn e : write_file (w_fs w) l c = Exn e -> written_w E l c w (Exn e) (logged (EvWrite l) w)
| ww_ok fs : write_file (w_fs w) l c = Ok fs -> written_w E l c w (Ok tt) (set_fs (logged (EvWrite l) w) fs).
Lemma m_write_inv E l c w r w' : m_write E l c w = (r, w') -> written_w E l c w r w'.
Proof.
  intros H. unfold m_write in H. apply op_cases in H as [(-> & -> & Hl)|H]; [apply ww_crash; assumption|].
  cbn [logged w_fs] in H. destruct (write_file (w_fs w) l c) eqn:Ew; inversion H; subst; [apply ww_ok|apply ww_exn]; assumption.
Qed.
Lemma m_read_inv E l w r w' : m_read E l w = (r, w') ->
  (r = Exn Crash /\ w' = w) \/
  (w' = logged (EvRead l) w /\ r = match lookup (w_fs w) l with
                                   | None => Exn FileNotFoundError | Some (Dir _) => Exn IsADirectoryError | Some (File c) => Ok c end).
Proof.
  intros H. unfold m_read in H. apply op_cases in H as [(-> & -> & Hl)|H]; [left; auto|]. right.
  cbn [logged w_fs] in H. destruct (lookup (w_fs w) l) as [[|]|]; inversion H; auto.
Qed.

(** The part of a mount that no operation changes. *)
Definition static (m : mount) : str * bool * bool := (m_dir m, m_cluster m, PathModel.m_gitignore m).
Definition statics (w : world) := map static (w_mounts w).
Lemma prepare_static cwd conf fs m p v ch inp r fs' m' inp' :
  prepare cwd conf fs m p v ch inp = (r, (fs', m', inp')) -> static m' = static m.
Proof.
  unfold prepare. destruct (normalize _ _ _ _); [|intros H; inversion H; reflexivity].
  destruct (register _ _ _ _ _) as [[[t' tt'] i']|]; [|intros H; inversion H; reflexivity].
  destruct (t_subdir t'); [|intros H; inversion H; reflexivity]. destruct (is_dir _ _); [intros H; inversion H; reflexivity|].
  destruct (makedirs _ _); intros H; inversion H; reflexivity.
Qed.
Lemma prepare_files cwd conf fs m p v ch inp r fs' m' inp' :
  prepare cwd conf fs m p v ch inp = (r, (fs', m', inp')) -> forall q, file_at fs' q = file_at fs q.
Proof.
  unfold prepare. destruct (normalize _ _ _ _); [|intros H; inversion H; reflexivity].
  destruct (register _ _ _ _ _) as [[[t' tt'] i']|]; [|intros H; inversion H; reflexivity].
  destruct (t_subdir t'); [|intros H; inversion H; reflexivity]. destruct (is_dir _ _); [intros H; inversion H; reflexivity|].
  destruct (makedirs _ _) eqn:Em; intros H; inversion H; subst; [|reflexivity]. eapply makedirs_file_at; eassumption.
Qed.
Lemma untrack_static cwd m p v m' : untrack cwd m p v = Ok m' -> static m' = static m.
Proof.
  unfold untrack. destruct (normalize _ _ _ _) as [t|e]; [|destruct e; intros H; inversion H; reflexivity].
  destruct (remove_first _ _); intros H; inversion H; reflexivity.
Qed.
Lemma mount_remove_static cwd fs m p v r fs' m' : mount_remove cwd fs m p v = (r, (fs', m')) -> static m' = static m.
Proof.
  unfold mount_remove. destruct (untrack cwd m p v) as [m1|] eqn:Eu; [|intros H; inversion H; reflexivity].
  apply untrack_static in Eu. destruct (lookup _ _) as [[|[|]]|]; intros H; inversion H; subst; assumption.
Qed.
Lemma statics_set w j m m' : nth_error (w_mounts w) j = Some m -> static m' = static m ->
  map static (set_nth j m' (w_mounts w)) = statics w.
Proof.
  intros H Hs. unfold statics. generalize dependent j. induction (w_mounts w) as [|x l IH]; intros [|j] H; cbn in *; try discriminate; try reflexivity.
  - inversion H; subst. rewrite Hs. reflexivity.
  - rewrite IH by assumption. reflexivity.
Qed.
Lemma statics_nth w j m : nth_error (w_mounts w) j = Some m -> nth_error (statics w) j = Some (static m).
Proof. intros H. unfold statics. apply map_nth_error. assumption. Qed.
