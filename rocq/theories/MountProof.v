(** Lemmas about Mount: containment, registration, removal. *)
From Coq Require Import List Ascii String Bool Arith NArith Lia.
From Verif Require Import Base PosixModel FsModel PathModel PathSpec PosixProof FsProof TargetProof.
Import ListNotations.

(** ** Relative path strings of clean components *)
Definition relstr (rest : list str) : str := match rest with [] => dot | _ => join_sep rest end.

Lemma relstr_split rest : Forall clean rest -> filter not_curdir (split_sep (relstr rest)) = rest.
Proof.
  intros H. destruct rest as [|x l]; [reflexivity|]. cbn [relstr].
  rewrite split_join by ((apply clean_split; assumption) || discriminate).
  apply filter_all. eapply Forall_impl; [|exact H]. apply clean_not_curdir.
Qed.

Lemma relstr_inj a b : Forall clean a -> Forall clean b -> relstr a = relstr b -> a = b.
Proof. intros Ha Hb E. rewrite <- (relstr_split a Ha), <- (relstr_split b Hb), E. reflexivity. Qed.

Lemma isabs_join_clean rest : Forall clean rest -> isabs (join_sep rest) = false.
Proof.
  intros H. destruct rest as [|x l]; [reflexivity|]. inversion H as [|? ? Hx _]; subst.
  destruct Hx as (H1 & _ & _ & H4). destruct x as [|c x]; [congruence|].
  assert (c <> sep) by (intros ->; apply H4; left; reflexivity).
  destruct l; cbn; destruct (ascii_dec c sep); congruence.
Qed.
Lemma isabs_relstr rest : Forall clean rest -> isabs (relstr rest) = false.
Proof. intros H. destruct rest; [reflexivity|]. apply isabs_join_clean; assumption. Qed.

Lemma norm_fold_clean acc cs : Forall clean cs -> fold_left (norm_step 0) cs acc = rev cs ++ acc.
Proof.
  intros H. revert acc. induction H as [|c cs Hc H IH]; intros acc; [reflexivity|].
  cbn [fold_left]. destruct Hc as (H1 & H2 & H3 & _). rewrite norm_step_plain by assumption.
  rewrite IH. cbn. rewrite <- app_assoc. reflexivity.
Qed.

Lemma initial_slashes_rel p : isabs p = false -> initial_slashes p = 0.
Proof.
  intros H. destruct (Nat.eq_dec (initial_slashes p) 0) as [|E]; [assumption|].
  apply initial_slashes_abs in E. congruence.
Qed.

Lemma normpath_relstr rest : Forall clean rest -> normpath (relstr rest) = relstr rest.
Proof.
  intros H. destruct rest as [|x l]; [reflexivity|]. cbn [relstr].
  assert (Hn : join_sep (x :: l) <> []).
  { inversion H as [|? ? Hx _]; subst. destruct Hx as (H1 & _). destruct x; [congruence|].
    destruct l; discriminate. }
  rewrite normpath_nonnil by assumption.
  rewrite initial_slashes_rel by (apply isabs_join_clean; assumption).
  rewrite split_join by ((apply clean_split; assumption) || discriminate).
  rewrite norm_fold_clean by assumption. rewrite app_nil_r, rev_involutive. cbn [repeat app].
  destruct (join_sep (x :: l)); [congruence|reflexivity].
Qed.

Definition rel_target (t : target) (rest : list str) : Prop :=
  Forall clean rest /\ named t /\ fspath t = Ok (relstr rest) /\
  t_subdir t = Some (join_sep (removelast rest)).

Lemma rel_target_key t rest : rel_target t rest -> t_key t = inl (relstr rest).
Proof.
  intros (H1 & _ & H3 & _). rewrite (t_key_fspath _ _ H3). rewrite normpath_relstr by assumption. reflexivity.
Qed.

Lemma rel_target_key_inj t r u s : rel_target t r -> rel_target u s -> (t_key t = t_key u <-> r = s).
Proof.
  intros Ht Hu. rewrite (rel_target_key _ _ Ht), (rel_target_key _ _ Hu). split.
  - intros E; inversion E. apply relstr_inj; [apply Ht|apply Hu|assumption].
  - congruence.
Qed.

Lemma join2_join_sep l x : Forall clean l -> noslash x -> join2 (join_sep l) x = join_sep (l ++ [x]).
Proof.
  intros Hl Hx. unfold join2. rewrite (noslash_not_isabs x Hx).
  destruct l as [|y l]; [reflexivity|].
  assert (E : join_sep (y :: l) <> []).
  { inversion Hl as [|? ? Hy _]; subst. destruct Hy as (H1 & _). destruct y; [congruence|].
    destruct l; discriminate. }
  destruct (join_sep (y :: l)) as [|c r] eqn:Ej; [congruence|]. rewrite <- Ej.
  rewrite join_sep_ends by assumption. rewrite join_sep_snoc by discriminate. reflexivity.
Qed.

Lemma from_path_rel rest : Forall clean rest -> rel_target (from_path (relstr rest)) rest.
Proof.
  intros H. split; [assumption|]. split; [apply from_path_named|].
  destruct rest as [|x0 l0]; [split; reflexivity|].
  destruct (exists_last (l := x0 :: l0)) as (l & x & E); [discriminate|]. rewrite E in *. clear E x0 l0.
  apply Forall_app in H as [Hl Hx]. inversion Hx as [|? ? Hx' _]; subst. clear Hx.
  replace (relstr (l ++ [x])) with (join_sep (l ++ [x])) by (destruct l; reflexivity).
  unfold from_path. rewrite path_split_clean by assumption.
  pose proof (splitext_app x) as Hs. destruct (splitext x) as [st su]. cbn in Hs.
  unfold fspath; cbn. rewrite Hs, removelast_last. split; [|reflexivity].
  rewrite join2_join_sep by (assumption || apply Hx'). reflexivity.
Qed.

Lemma del_digits_incl s s' : del_digits s s' -> forall c, In c s' -> In c s.
Proof. induction 1; cbn; intros x Hx; [assumption| |]; [destruct Hx as [->|Hx]; auto|auto]. Qed.

(** suggestions of a relative target are relative targets in the same directory *)
Lemma cand_rel sd st su rest j : rel_target (mkTarget (Some sd) (Some st) (Some su)) rest ->
  splitext (st ++ su) = (st, su) ->
  exists name, rel_target (cand sd st su j) (removelast rest ++ [name]) /\
    name = base_of st ++ str_of_N j ++ su.
Proof.
  intros (Hc & Hn & Hf & Hs) Hsp. exists (base_of st ++ str_of_N j ++ su). split; [|reflexivity].
  cbn in Hf, Hs. inversion Hs; subst sd. clear Hs.
  assert (Hcl : Forall clean (removelast rest)).
  { destruct rest as [|x l]; [constructor|].
    rewrite (@app_removelast_last _ (x :: l) []) in Hc by discriminate.
    apply Forall_app in Hc as [Hc _]. exact Hc. }
  assert (Hst : noslash st).
  { destruct rest as [|x0 l0].
    - cbn in Hf. unfold join2 in Hf. destruct (isabs (st ++ su)); inversion Hf as [E];
        intros Hi; assert (Hi' : In sep (st ++ su)) by (apply in_or_app; auto);
        rewrite E in Hi'; destruct Hi' as [Hi'|[]]; discriminate.
    - destruct (exists_last (l := x0 :: l0)) as (l & x & E); [discriminate|]. rewrite E in *.
      rewrite removelast_last in *. apply Forall_app in Hc as [_ Hx].
      inversion Hx as [|? ? Hx' _]; subst.
      assert (Hns : ~ In sep (st ++ su)).
      { replace (relstr (l ++ [x])) with (join_sep (l ++ [x])) in Hf by (destruct l; reflexivity).
        inversion Hf as [Hf'].
        destruct (isabs (st ++ su)) eqn:Ea.
        - exfalso. unfold join2 in Hf'. rewrite Ea in Hf'.
          assert (isabs (join_sep (l ++ [x])) = false).
          { apply isabs_join_clean. apply Forall_app; split; [assumption|constructor; [assumption|constructor]]. }
          congruence.
        - assert (E2 : join2 (join_sep l) (st ++ su) = join2 (join_sep l) x).
          { rewrite Hf'. symmetry. apply join2_join_sep; [assumption|apply Hx']. }
          unfold join2 in E2. rewrite Ea, (noslash_not_isabs x) in E2 by apply Hx'.
          destruct (join_sep l) as [|c r] eqn:Ej.
          + rewrite E2. apply Hx'.
          + destruct (ends_sep (c :: r)).
            * apply app_inv_head in E2. rewrite E2. apply Hx'.
            * apply app_inv_head in E2. injection E2 as E3. rewrite E3. apply Hx'. }
      intros Hi. apply Hns. apply in_or_app; left; exact Hi. }
  assert (Hsu : noslash su) by (eapply su_noslash; eassumption).
  assert (Hb : noslash (base_of st)).
  { intros Hi. apply Hst. eapply del_digits_incl; [apply base_of_del|exact Hi]. }
  assert (Hnm : clean (base_of st ++ str_of_N j ++ su)).
  { pose proof (str_of_N_digits j) as Hd. pose proof (str_of_N_nonnil j) as Hne.
    assert (Hns : noslash (base_of st ++ str_of_N j ++ su)).
    { intros Hi. apply in_app_or in Hi as [Hi|Hi]; [contradiction|].
      apply in_app_or in Hi as [Hi|Hi]; [|contradiction]. exact (digits_noslash _ Hd Hi). }
    destruct (str_of_N j) as [|c n]; [congruence|]. inversion Hd; subst.
    assert (Hin : In c (base_of st ++ (c :: n) ++ su)) by (apply in_or_app; right; left; reflexivity).
    destruct (digit_plain _ _ Hin) as (H3 & H4 & H5); [assumption|]. repeat split; assumption. }
  split; [apply Forall_app; split; [assumption|constructor; [assumption|constructor]]|].
  split; [apply cand_named; assumption|].
  cbn [fspath cand t_subdir t_stem t_suffix]. split.
  - rewrite <- app_assoc. f_equal. rewrite join2_join_sep; [|assumption|apply Hnm].
    destruct (removelast rest); reflexivity.
  - rewrite removelast_last. reflexivity.
Qed.

(** ** Containment *)
Lemma contains_eq cwd dir path : absolute cwd -> absolute dir ->
  contains cwd dir path = Ok (is_prefix (comps_cp dir) (location cwd path)).
Proof.
  intros Hc Hd. unfold contains, commonpath1, commonpath2. cbn [bind].
  pose proof (proj1 (absolute_isabs dir) Hd) as Hd'.
  rewrite Hd', abspath_isabs by assumption. cbn [Bool.eqb bind].
  rewrite comps_cp_abspath by assumption. f_equal.
  destruct (is_prefix (comps_cp dir) (location cwd path)) eqn:E.
  - apply is_prefix_iff in E. apply lcp_prefix_iff in E. rewrite E.
    destruct (str_eq_dec _ _); [reflexivity|congruence].
  - destruct (str_eq_dec _ _) as [H|]; [exfalso|reflexivity].
    apply app_inv_head in H. apply join_sep_inj in H.
    + symmetry in H. apply lcp_prefix_iff in H. apply is_prefix_iff in H. congruence.
    + eapply Forall_impl; [|apply comps_cp_Forall]. intros a (_&_&Ha); exact Ha.
    + apply Forall_forall. intros c Hi. apply lcp_incl in Hi.
      pose proof (comps_cp_Forall dir) as Hf. rewrite Forall_forall in Hf. apply Hf; assumption.
    + eapply Forall_impl; [|apply comps_cp_Forall]. intros a (Ha&_&_); exact Ha.
    + apply Forall_forall. intros c Hi. apply lcp_incl in Hi.
      pose proof (comps_cp_Forall dir) as Hf. rewrite Forall_forall in Hf. apply Hf; assumption.
Qed.

Lemma contains_true cwd dir path : absolute cwd -> absolute dir ->
  contains cwd dir path = Ok true ->
  location cwd dir = comps_cp dir /\ exists rest, location cwd path = location cwd dir ++ rest /\ Forall clean rest.
Proof.
  intros Hc Hd H. rewrite contains_eq in H by assumption. inversion H as [H'].
  apply is_prefix_iff in H' as [rest Hr].
  assert (E : location cwd dir = comps_cp dir).
  { apply location_no_dotdot; [assumption|]. intros Hi.
    pose proof (location_clean cwd path) as Hl. rewrite Hr in Hl. apply Forall_app in Hl as [Hl _].
    rewrite Forall_forall in Hl. apply Hl in Hi. destruct Hi as (_&_&Hi&_). congruence. }
  split; [exact E|]. exists rest. split; [congruence|].
  pose proof (location_clean cwd path) as Hl. rewrite Hr in Hl. apply Forall_app in Hl as [_ Hl]. exact Hl.
Qed.

Lemma no_dotdot_comps p : no_dotdot p -> ~ In dotdot (comps_cp p).
Proof.
  unfold no_dotdot. rewrite components_split. intros H Hi. apply H. unfold comps_cp in Hi.
  apply filter_In in Hi as [Hi _]. exact Hi.
Qed.

Lemma contains_inside cwd dir path : absolute cwd -> absolute dir -> no_dotdot dir ->
  (contains cwd dir path = Ok true <-> inside (location cwd path) (location cwd dir)).
Proof.
  intros Hc Hd Hn. split.
  - intros H. apply contains_true in H as (_ & rest & H & _); [|assumption|assumption]. exists rest; exact H.
  - intros [rest H]. rewrite contains_eq by assumption. f_equal. apply is_prefix_iff.
    rewrite (location_no_dotdot cwd dir) in H by (assumption || (apply no_dotdot_comps; assumption)). exists rest; exact H.
Qed.

(** ** relpath *)
Lemma relpath_below cwd path start rest : absolute cwd -> start <> [] -> path <> [] ->
  location cwd path = location cwd start ++ rest -> Forall clean rest ->
  relpath cwd path start = Ok (relstr rest).
Proof.
  intros Hc Hs Hp H Hr. unfold relpath. destruct path as [|c r] eqn:Ep; [congruence|]. rewrite <- Ep in *.
  destruct start as [|c' r'] eqn:Es; [congruence|]. rewrite <- Es in *.
  rewrite !comps_ne_abspath by assumption. rewrite H.
  replace (lcp (location cwd start) (location cwd start ++ rest)) with (location cwd start).
  - rewrite Nat.sub_diag. cbn [repeat app]. rewrite skipn_app, Nat.sub_diag, skipn_all. cbn [app skipn].
    destruct rest as [|x l]; [reflexivity|]. rewrite joinN_join_sep by assumption. reflexivity.
  - symmetry. apply lcp_prefix_iff. exists rest; reflexivity.
Qed.

Lemma join2_nonnil a b : absolute a -> join2 a b <> [].
Proof.
  intros Ha. apply absolute_isabs in Ha. pose proof (isabs_join2 a b Ha) as H. destruct (join2 a b); [discriminate|discriminate].
Qed.
Lemma absolute_nonnil a : absolute a -> a <> [].
Proof. intros [r ->]. discriminate. Qed.

Lemma normalize_ok cwd dir path : absolute cwd -> absolute dir ->
  forall t, normalize cwd dir path true = Ok t ->
  exists rest, location cwd (join2 dir path) = location cwd dir ++ rest /\
    t = from_path (relstr rest) /\ rel_target t rest.
Proof.
  intros Hc Hd t H. unfold normalize, mount_abspath in H.
  destruct (contains cwd dir (join2 dir path)) as [[|]|] eqn:E; cbn [bind] in H; try discriminate.
  apply contains_true in E as (E & rest & H1 & H2); [|assumption|assumption].
  rewrite (relpath_below cwd _ dir rest) in H;
    [|assumption|apply absolute_nonnil; assumption|apply join2_nonnil; assumption|assumption|assumption].
  cbn [bind] in H. inversion H; subst. exists rest. split; [exact H1|]. split; [reflexivity|].
  apply from_path_rel; assumption.
Qed.

Lemma normalize_cases cwd dir path : absolute cwd -> absolute dir ->
  (exists t, normalize cwd dir path true = Ok t) \/ normalize cwd dir path true = Exn MountException.
Proof.
  intros Hc Hd. unfold normalize, mount_abspath. rewrite contains_eq by assumption. cbn [bind].
  destruct (is_prefix _ _) eqn:E; [|right; reflexivity]. left.
  assert (Ht : contains cwd dir (join2 dir path) = Ok true) by (rewrite contains_eq, E by assumption; reflexivity).
  apply contains_true in Ht as (_ & rest & H1 & H2); [|assumption|assumption].
  cbn [bind]. rewrite (relpath_below cwd _ dir rest);
    [|assumption|apply absolute_nonnil; assumption|apply join2_nonnil; assumption|assumption|assumption].
  eexists; reflexivity.
Qed.

Lemma normalize_rejects cwd dir path : absolute cwd -> absolute dir -> no_dotdot dir ->
  (normalize cwd dir path true = Exn MountException <->
   ~ inside (location cwd (join2 dir path)) (location cwd dir)).
Proof.
  intros Hc Hd Hn. rewrite <- contains_inside by assumption.
  unfold normalize, mount_abspath. rewrite contains_eq by assumption. cbn [bind].
  destruct (is_prefix _ _) eqn:E.
  - split; [|congruence].
    assert (Ht : contains cwd dir (join2 dir path) = Ok true) by (rewrite contains_eq, E by assumption; reflexivity).
    apply contains_true in Ht as (_ & rest & H1 & H2); [|assumption|assumption].
    cbn [bind]. rewrite (relpath_below cwd _ dir rest);
      [|assumption|apply absolute_nonnil; assumption|apply join2_nonnil; assumption|assumption|assumption].
    discriminate.
  - split; [congruence|reflexivity].
Qed.

(** where a relative target lies under a mount directory *)
Lemma rel_target_location cwd dir t rest p : absolute dir -> rel_target t rest -> fspath t = Ok p ->
  isabs p = false /\ location cwd (join2 dir p) = location cwd dir ++ rest /\
  walk (location cwd dir) (components p) = location cwd dir ++ rest.
Proof.
  intros Hd (Hc & _ & Hf & _) Hp. rewrite Hf in Hp. inversion Hp; subst p.
  assert (Ha : isabs (relstr rest) = false) by (apply isabs_relstr; assumption).
  assert (E : walk (location cwd dir) (split_sep (relstr rest)) = location cwd dir ++ rest).
  { rewrite walk_filter, relstr_split by assumption. apply walk_clean_app; assumption. }
  split; [assumption|]. split; [|rewrite components_split; exact E].
  rewrite location_join2 by assumption. rewrite Ha. exact E.
Qed.

(** ** Registration *)
Definition eff_choice (conf : str) (choice : option str) : str :=
  match choice with None => conf | Some c => c end.

Lemma register_fresh conf choice inputs touched t : in_touched t touched = false ->
  register conf choice inputs touched t = Ok (t, touched ++ [t], inputs).
Proof. intros H. unfold register. cbn [register_f]. rewrite H. reflexivity. Qed.

Definition has_digit (s : str) : Prop := exists c, In c s /\ is_digit c = true.

Lemma join_sep_In l x c : In x l -> In c x -> In c (join_sep l).
Proof.
  induction l as [|y l IH]; intros Hx Hc; [contradiction|].
  destruct l as [|z l].
  - destruct Hx as [->|[]]. exact Hc.
  - change (join_sep (y :: z :: l)) with (y ++ sep :: join_sep (z :: l)).
    apply in_or_app. destruct Hx as [->|Hx]; [left; exact Hc|right; right; auto].
Qed.

Lemma cand_str_teq sd st su j s : splitext (st ++ su) = (st, su) ->
  str_teq s (cand sd st su j) = true -> has_digit s.
Proof.
  intros Hn. unfold str_teq. destruct (key_eq_dec _ _) as [E|]; [intros _|discriminate].
  rewrite cand_key in E by assumption. inversion E as [E'].
  pose proof (str_of_N_digits j) as Hd. pose proof (str_of_N_nonnil j) as Hne.
  destruct (str_of_N j) as [|c n] eqn:Ej; [congruence|]. inversion Hd as [|? ? Hc Hn']; subst.
  cbn [app]. rewrite (normpath_last _ (c :: n ++ su) c (n ++ su)); [|reflexivity|assumption|].
  - exists c. split; [|assumption]. apply in_or_app; right.
    eapply join_sep_In; [apply in_or_app; right; left; reflexivity|].
    apply in_or_app; right; left; reflexivity.
  - change (c :: n ++ su) with ((c :: n) ++ su). intros Hi. apply in_app_or in Hi as [Hi|Hi].
    + exact (digits_noslash _ Hd Hi).
    + eapply su_noslash; eassumption.
Qed.

Lemma update_cand sd st su j : splitext (st ++ su) = (st, su) ->
  exists n, t_name (cand sd st su j) = Ok n /\
    update (mkTarget (Some sd) (Some st) (Some su)) None None None (Some n) = Ok (cand sd st su j).
Proof.
  intros Hn. exists ((base_of st ++ str_of_N j) ++ su). split; [reflexivity|].
  apply update_name. apply splitext_suggestion; assumption.
Qed.

(** the automatic alternative *)
Lemma register_auto_touched conf choice inputs touched t :
  named t -> in_touched t touched = true -> eff_choice conf choice = $"auto" ->
  exists sd st su j, t = mkTarget (Some sd) (Some st) (Some su) /\ splitext (st ++ su) = (st, su) /\
    in_touched (cand sd st su j) touched = false /\
    register conf choice inputs touched t = Ok (cand sd st su j, touched ++ [cand sd st su j], inputs).
Proof.
  intros Hn Ht Hc. destruct (default_named touched t Hn) as [[E _]|[_ (sd & st & su & j & E & Hs & _ & Hd & Hf)]];
    [congruence|]. exists sd, st, su, j. split; [assumption|]. split; [assumption|]. split; [assumption|].
  unfold register. cbn [register_f]. rewrite Ht, Hd. cbn [bind].
  change (match choice with Some c => c | None => conf end) with (eff_choice conf choice).
  rewrite Hc. destruct (str_eq_dec ($"auto") ($"prompt")) as [H|_]; [discriminate H|].
  cbn [bind]. destruct (str_eq_dec ($"auto") ($"auto")); [|congruence]. rewrite orb_true_r.
  destruct (update_cand sd st su j Hs) as (n & H1 & H2). rewrite H1. cbn [bind]. rewrite E, H2. cbn [bind].
  rewrite Hf. reflexivity.
Qed.

Lemma has_digit_false s : existsb is_digit s = false -> ~ has_digit s.
Proof.
  intros H (c & Hc & Hd). assert (existsb is_digit s = true) by (apply existsb_exists; eauto). congruence.
Qed.

Lemma register_quit_touched conf choice inputs touched t :
  named t -> in_touched t touched = true -> In (eff_choice conf choice) [$"q"; $"quit"] ->
  register conf choice inputs touched t = Exn UserQuitException.
Proof.
  intros Hn Ht Hc. destruct (default_named touched t Hn) as [[E _]|[_ (sd & st & su & j & E & Hs & _ & Hd & Hf)]];
    [congruence|]. unfold register. cbn [register_f]. rewrite Ht, Hd. cbn [bind].
  change (match choice with Some c => c | None => conf end) with (eff_choice conf choice).
  assert (Hdg : existsb is_digit (eff_choice conf choice) = false) by (destruct Hc as [<-|[<-|[]]]; reflexivity).
  apply has_digit_false in Hdg.
  assert (Hp : eff_choice conf choice <> $"prompt") by (destruct Hc as [<-|[<-|[]]]; discriminate).
  assert (Ha : eff_choice conf choice <> $"auto") by (destruct Hc as [<-|[<-|[]]]; discriminate).
  destruct (str_eq_dec (eff_choice conf choice) ($"prompt")); [contradiction|]. cbn [bind].
  destruct (str_eq_dec (eff_choice conf choice) ($"auto")); [contradiction|].
  destruct (str_teq (eff_choice conf choice) (cand sd st su j)) eqn:Et.
  - exfalso. apply Hdg. eapply cand_str_teq; eassumption.
  - cbn [orb]. unfold member. destruct (in_dec str_eq_dec (eff_choice conf choice) [$"q"; $"quit"]); [reflexivity|contradiction].
Qed.

Lemma register_ignore_touched conf choice inputs touched t :
  named t -> in_touched t touched = true -> In (eff_choice conf choice) [$"x"; $"ignore"; $"_ignore"] ->
  register conf choice inputs touched t = Ok (t, touched, inputs).
Proof.
  intros Hn Ht Hc. destruct (default_named touched t Hn) as [[E _]|[_ (sd & st & su & j & E & Hs & _ & Hd & Hf)]];
    [congruence|]. unfold register. cbn [register_f]. rewrite Ht, Hd. cbn [bind].
  change (match choice with Some c => c | None => conf end) with (eff_choice conf choice).
  assert (Hdg : existsb is_digit (eff_choice conf choice) = false) by (destruct Hc as [<-|[<-|[<-|[]]]]; reflexivity).
  apply has_digit_false in Hdg.
  assert (Hp : eff_choice conf choice <> $"prompt") by (destruct Hc as [<-|[<-|[<-|[]]]]; discriminate).
  assert (Ha : eff_choice conf choice <> $"auto") by (destruct Hc as [<-|[<-|[<-|[]]]]; discriminate).
  assert (Hq : ~ In (eff_choice conf choice) [$"q"; $"quit"])
    by (destruct Hc as [<-|[<-|[<-|[]]]]; intros [H|[H|[]]]; discriminate H).
  destruct (str_eq_dec (eff_choice conf choice) ($"prompt")); [contradiction|]. cbn [bind].
  destruct (str_eq_dec (eff_choice conf choice) ($"auto")); [contradiction|].
  destruct (str_teq (eff_choice conf choice) (cand sd st su j)) eqn:Et.
  - exfalso. apply Hdg. eapply cand_str_teq; eassumption.
  - cbn [orb]. unfold member. destruct (in_dec str_eq_dec (eff_choice conf choice) [$"q"; $"quit"]); [contradiction|].
    destruct (in_dec str_eq_dec (eff_choice conf choice) [$"x"; $"ignore"; $"_ignore"]); [reflexivity|contradiction].
Qed.

(** ** The prompt dialogue *)
Definition answers (inputs : list str) (keys : list str) : Prop :=
  exists l, In l inputs /\ In (lower l) keys.

Lemma register_f_fresh fuel conf choice inputs touched t : in_touched t touched = false ->
  register_f fuel conf choice inputs touched t = Ok (t, touched ++ [t], inputs).
Proof. intros H. destruct fuel; cbn [register_f]; rewrite H; reflexivity. Qed.

Lemma register_f_prompt conf touched : forall inputs fuel t choice, named t ->
  eff_choice conf choice = $"prompt" -> S (S (List.length inputs)) <= fuel ->
  match register_f fuel conf choice inputs touched t with
  | Ok (t', touched', inputs') =>
      named t' /\ t_subdir t' = t_subdir t /\ (exists used, inputs = used ++ inputs') /\
      ((in_touched t' touched = false /\ touched' = touched ++ [t']) \/
       (in_touched t' touched = true /\ touched' = touched /\ answers inputs [$"x"; $"ignore"; $"_ignore"]))
  | Exn e => (e = UserQuitException /\ answers inputs [$"q"; $"quit"]) \/ e = EOFError
  end.
Proof.
  induction inputs as [|l inputs IH]; intros fuel t choice Hn Hc Hf;
    (destruct fuel as [|f]; [cbn in Hf; lia|]); cbn [register_f];
    change (match choice with Some c => c | None => conf end) with (eff_choice conf choice);
    (destruct (in_touched t touched) eqn:Et;
      [|split; [assumption|]; split; [reflexivity|]; split; [exists []; reflexivity|]; left; split; [assumption|reflexivity]]).
  - destruct (default_named touched t Hn) as [[E _]|[_ (sd & st & su & j & E & Hs & _ & Hd & Hfr)]]; [congruence|].
    rewrite Hd, Hc. cbn [bind]. destruct (str_eq_dec ($"prompt") ($"prompt")); [|congruence].
    right; reflexivity.
  - destruct (default_named touched t Hn) as [[E _]|[_ (sd & st & su & j & E & Hs & _ & Hd & Hfr)]]; [congruence|].
    rewrite Hd, Hc. cbn [bind]. destruct (str_eq_dec ($"prompt") ($"prompt")); [|congruence].
    cbn [prompt_user bind].
    assert (Hauto : match (do n <- t_name (cand sd st su j);
                           do t' <- update t None None None (Some n);
                           register_f f conf (Some ($"auto")) inputs touched t') with
            | Ok (t', touched', inputs') =>
                named t' /\ t_subdir t' = t_subdir t /\ (exists used, l :: inputs = used ++ inputs') /\
                ((in_touched t' touched = false /\ touched' = touched ++ [t']) \/
                 (in_touched t' touched = true /\ touched' = touched /\ answers (l :: inputs) [$"x"; $"ignore"; $"_ignore"]))
            | Exn e => (e = UserQuitException /\ answers (l :: inputs) [$"q"; $"quit"]) \/ e = EOFError
            end).
    { destruct (update_cand sd st su j Hs) as (n & H1 & H2). rewrite H1. cbn [bind]. rewrite E, H2. cbn [bind].
      rewrite register_f_fresh by assumption.
      split; [apply cand_named; assumption|]. split; [reflexivity|]. split; [exists [l]; reflexivity|].
      left; auto. }
    destruct (lower l) as [|c0 s0] eqn:El; [exact Hauto|]. rewrite <- El.
    destruct (str_teq (lower l) (cand sd st su j) || (if str_eq_dec (lower l) ($"auto") then true else false)) eqn:Ea;
      [exact Hauto|].
    unfold member. destruct (in_dec str_eq_dec (lower l) [$"q"; $"quit"]) as [Hq|Hq].
    + left. split; [reflexivity|]. exists l. split; [left; reflexivity|exact Hq].
    + destruct (in_dec str_eq_dec (lower l) [$"x"; $"ignore"; $"_ignore"]) as [Hx|Hx].
      * split; [assumption|]. split; [reflexivity|]. split; [exists [l]; reflexivity|].
        right. split; [assumption|]. split; [reflexivity|]. exists l. split; [left; reflexivity|exact Hx].
      * destruct (update_named t (lower l) Hn) as (t' & Hu & Hn' & Hsd & _). rewrite Hu. cbn [bind].
        specialize (IH f t' (Some ($"prompt")) Hn' eq_refl). cbn in Hf. specialize (IH ltac:(lia)).
        destruct (register_f f conf (Some ($"prompt")) inputs touched t') as [[[t2 touched2] inputs2]|ex].
        -- destruct IH as (I1 & I2 & (used & I3) & I4). split; [assumption|]. split; [congruence|].
           split; [exists (l :: used); cbn; congruence|].
           destruct I4 as [I4|(I4 & I5 & (a & Ia & Ib))]; [left; exact I4|].
           right. split; [assumption|]. split; [assumption|]. exists a. split; [right; exact Ia|exact Ib].
        -- destruct IH as [(I1 & (a & Ia & Ib))|I1]; [left|right; exact I1].
           split; [assumption|]. exists a. split; [right; exact Ia|exact Ib].
Qed.
