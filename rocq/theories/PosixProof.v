(** Lemmas about the posixpath model. *)
From Coq Require Import List Ascii String Bool Arith Lia.
From Verif Require Import Base PosixModel FsModel PathSpec.
Import ListNotations.

Definition noslash (s : str) : Prop := ~ In sep s.
Definition clean (c : str) : Prop := c <> [] /\ c <> dot /\ c <> dotdot /\ noslash c.

Lemma split_sep_nonnil s : split_sep s <> [].
Proof.
  destruct s as [|c r]; cbn; [discriminate|].
  destruct (ascii_dec c sep); [discriminate|].
  destruct (split_sep r); discriminate.
Qed.

Lemma split_sep_noslash s : Forall noslash (split_sep s).
Proof.
  induction s as [|c r IH]; cbn.
  - constructor; [intros []|constructor].
  - destruct (ascii_dec c sep) as [E|E].
    + constructor; [intros []|exact IH].
    + destruct (split_sep r) as [|h t] eqn:Er.
      * constructor; [|constructor]. intros [H|[]]. congruence.
      * inversion IH; subst. constructor; [|assumption].
        intros [H|H]; [congruence|contradiction].
Qed.

Lemma join_split s : join_sep (split_sep s) = s.
Proof.
  induction s as [|c r IH]; [reflexivity|]. cbn [split_sep].
  destruct (ascii_dec c sep) as [->|E].
  - pose proof (split_sep_nonnil r) as Hn.
    destruct (split_sep r) as [|h t] eqn:Er; [contradiction|].
    change (join_sep ([] :: h :: t)) with ([] ++ sep :: join_sep (h :: t)).
    rewrite IH. reflexivity.
  - pose proof (split_sep_nonnil r) as Hn.
    destruct (split_sep r) as [|h t] eqn:Er; [contradiction|].
    rewrite <- IH. destruct t; reflexivity.
Qed.

Lemma split_noslash s : noslash s -> split_sep s = [s].
Proof.
  induction s as [|c r IH]; intros H; [reflexivity|]. cbn.
  destruct (ascii_dec c sep) as [->|E].
  - exfalso. apply H. left; reflexivity.
  - rewrite IH; [reflexivity|]. intros Hi. apply H. right; exact Hi.
Qed.

Lemma split_app a b : split_sep (a ++ sep :: b) = split_sep a ++ split_sep b.
Proof.
  induction a as [|c r IH]; cbn [app split_sep].
  - destruct (ascii_dec sep sep); [reflexivity|congruence].
  - destruct (ascii_dec c sep); [rewrite IH; reflexivity|].
    rewrite IH. pose proof (split_sep_nonnil r).
    destruct (split_sep r); [contradiction|reflexivity].
Qed.

(** appending slash-free text extends the last component *)
Lemma split_app_noslash a b : noslash b ->
  split_sep (a ++ b) = removelast (split_sep a) ++ [last (split_sep a) [] ++ b].
Proof.
  intros Hb. induction a as [|c r IH]; cbn [app split_sep].
  - rewrite split_noslash by assumption. reflexivity.
  - destruct (ascii_dec c sep).
    + rewrite IH. pose proof (split_sep_nonnil r).
      destruct (split_sep r) eqn:Er; [contradiction|]. reflexivity.
    + rewrite IH. pose proof (split_sep_nonnil r).
      destruct (split_sep r) as [|h t] eqn:Er; [contradiction|].
      destruct t; reflexivity.
Qed.

Lemma split_join l : Forall noslash l -> l <> [] -> split_sep (join_sep l) = l.
Proof.
  induction l as [|x l IH]; intros H Hn; [contradiction|].
  inversion H; subst. destruct l as [|y l].
  - apply split_noslash; assumption.
  - change (join_sep (x :: y :: l)) with (x ++ sep :: join_sep (y :: l)).
    rewrite split_app, IH by (assumption || discriminate).
    rewrite split_noslash by assumption. reflexivity.
Qed.

Lemma join_sep_inj a b : Forall noslash a -> Forall noslash b ->
  Forall (fun c => c <> []) a -> Forall (fun c => c <> []) b ->
  join_sep a = join_sep b -> a = b.
Proof.
  intros Ha Hb Na Nb E.
  destruct a as [|x a], b as [|y b]; [reflexivity| | |].
  - exfalso. inversion Nb; subst. destruct y; [contradiction|].
    destruct b; discriminate.
  - exfalso. inversion Na; subst. destruct x; [contradiction|].
    destruct a; discriminate.
  - rewrite <- (split_join (x :: a)), <- (split_join (y :: b)) by (assumption || discriminate).
    rewrite E. reflexivity.
Qed.

(** ** The specification's components *)
Lemma components_from_split cur p : noslash cur ->
  components_from cur p = match split_sep p with h :: t => (cur ++ h) :: t | [] => [cur] end.
Proof.
  revert cur. induction p as [|c r IH]; intros cur Hc; cbn.
  - rewrite app_nil_r. reflexivity.
  - change "/"%char with sep. destruct (ascii_dec c sep) as [E|E].
    + rewrite IH by (intros []). rewrite app_nil_r.
      pose proof (split_sep_nonnil r). destruct (split_sep r); [contradiction|reflexivity].
    + rewrite IH.
      * pose proof (split_sep_nonnil r). destruct (split_sep r); [contradiction|].
        rewrite <- app_assoc. reflexivity.
      * intros Hi. apply in_app_or in Hi as [Hi|[Hi|[]]]; [contradiction|congruence].
Qed.

Lemma components_split p : components p = split_sep p.
Proof.
  unfold components. rewrite components_from_split by (intros []).
  pose proof (split_sep_nonnil p). destruct (split_sep p); [contradiction|reflexivity].
Qed.

Lemma absolute_isabs p : absolute p <-> isabs p = true.
Proof.
  unfold absolute, isabs. change "/"%char with sep. split.
  - intros [r ->]. destruct (ascii_dec sep sep); congruence.
  - destruct p as [|c r]; [discriminate|]. destruct (ascii_dec c sep) as [->|]; [|discriminate].
    intros _. exists r. reflexivity.
Qed.

(** ** norm_step against walk *)
Lemma removelast_rev {A} (x : A) l : removelast (rev (x :: l)) = rev l.
Proof. cbn. apply removelast_last. Qed.

Lemma norm_step_abs ini acc c : ini <> 0 -> Forall clean acc -> noslash c ->
  Forall clean (norm_step ini acc c) /\ rev (norm_step ini acc c) = walk_step (rev acc) c.
Proof.
  intros Hi Ha Hc. unfold norm_step, walk_step.
  change ($"") with (@nil ascii). change ($".") with dot. change ($"..") with dotdot.
  destruct (str_eq_dec c []); [split; [assumption|reflexivity]|].
  destruct (str_eq_dec c dot); [split; [assumption|reflexivity]|].
  destruct (str_eq_dec c dotdot) as [->|].
  - destruct acc as [|top rest].
    + destruct (Nat.eqb_spec ini 0); [contradiction|]. split; [constructor|reflexivity].
    + inversion Ha; subst. destruct (str_eq_dec top dotdot) as [->|].
      * destruct H1 as (_ & _ & H1 & _). contradiction.
      * split; [assumption|]. rewrite removelast_rev. reflexivity.
  - split; [constructor; [repeat split; assumption|assumption]|]. reflexivity.
Qed.

Lemma norm_fold_abs ini cs acc : ini <> 0 -> Forall clean acc -> Forall noslash cs ->
  Forall clean (fold_left (norm_step ini) cs acc) /\
  rev (fold_left (norm_step ini) cs acc) = walk (rev acc) cs.
Proof.
  intros Hi. revert acc. induction cs as [|c cs IH]; intros acc Ha Hc; cbn.
  - split; [assumption|reflexivity].
  - inversion Hc; subst. destruct (norm_step_abs ini acc c Hi Ha H1) as [H3 H4].
    destruct (IH _ H3 H2) as [H5 H6]. split; [assumption|].
    rewrite H6, H4. reflexivity.
Qed.

Lemma initial_slashes_abs p : isabs p = true <-> initial_slashes p <> 0.
Proof.
  unfold isabs, initial_slashes.
  destruct p as [|a [|b [|c r]]]; repeat destruct (ascii_dec _ _); split; congruence || lia || auto.
Qed.

Lemma initial_slashes_cases p : initial_slashes p = 0 \/ initial_slashes p = 1 \/ initial_slashes p = 2.
Proof.
  unfold initial_slashes.
  destruct p as [|a [|b [|c r]]]; repeat destruct (ascii_dec _ _); auto.
Qed.

Lemma walk_clean here cs : Forall clean here -> Forall noslash cs -> Forall clean (walk here cs).
Proof.
  intros Hh Hc.
  destruct (norm_fold_abs 1 cs (rev here)) as [H1 H2]; [lia| |assumption|].
  - apply Forall_rev; assumption.
  - rewrite rev_involutive in H2. rewrite <- H2. apply Forall_rev. assumption.
Qed.

Lemma clean_split l : Forall clean l -> Forall noslash l.
Proof. intros H. eapply Forall_impl; [|exact H]. intros a (_&_&_&Ha); exact Ha. Qed.

Lemma filter_all {A} (f : A -> bool) l : Forall (fun x => f x = true) l -> filter f l = l.
Proof. induction 1; cbn; [reflexivity|]. rewrite H, IHForall. reflexivity. Qed.

Lemma clean_nonempty c : clean c -> nonempty c = true.
Proof. intros (H&_). unfold nonempty. destruct (str_eq_dec c []); congruence. Qed.
Lemma clean_not_curdir c : clean c -> not_curdir c = true.
Proof.
  intros H. pose proof (clean_nonempty _ H). destruct H as (_&H&_).
  unfold not_curdir. destruct (str_eq_dec c dot); congruence.
Qed.

Lemma filter_split_slashes f k l : f [] = false -> Forall (fun x => f x = true) l -> Forall noslash l ->
  filter f (split_sep (repeat sep k ++ join_sep l)) = l.
Proof.
  intros Hf Hl Hn. induction k as [|k IH]; cbn [repeat app].
  - destruct l as [|x l].
    + cbn. rewrite Hf. reflexivity.
    + rewrite split_join by (assumption || discriminate). apply filter_all; assumption.
  - cbn [split_sep]. destruct (ascii_dec sep sep); [|congruence].
    cbn [filter]. rewrite Hf. exact IH.
Qed.

Lemma normpath_abs p : isabs p = true ->
  exists k, k <> 0 /\ normpath p = repeat sep k ++ join_sep (walk [] (split_sep p)) /\ k = initial_slashes p.
Proof.
  intros Hp. pose proof (proj1 (initial_slashes_abs p) Hp) as Hi.
  exists (initial_slashes p). split; [assumption|]. split; [|reflexivity].
  unfold normpath. destruct p as [|c r] eqn:Ep; [discriminate|].
  rewrite <- Ep in *.
  destruct (norm_fold_abs (initial_slashes p) (split_sep p) []) as [_ H2];
    [assumption|constructor|apply split_sep_noslash|].
  rewrite H2. cbn [rev].
  destruct (initial_slashes p) eqn:E; [contradiction|]. reflexivity.
Qed.

Lemma normpath_isabs p : isabs p = true -> isabs (normpath p) = true.
Proof.
  intros H. destruct (normpath_abs p H) as (k & Hk & -> & _).
  destruct k; [contradiction|]. cbn. destruct (ascii_dec sep sep); congruence.
Qed.

Lemma comps_ne_normpath p : isabs p = true -> comps_ne (normpath p) = walk [] (split_sep p).
Proof.
  intros H. destruct (normpath_abs p H) as (k & Hk & -> & _).
  assert (Hc : Forall clean (walk [] (split_sep p)))
    by (apply walk_clean; [constructor|apply split_sep_noslash]).
  apply filter_split_slashes; [reflexivity| |apply clean_split; assumption].
  eapply Forall_impl; [|exact Hc]. apply clean_nonempty.
Qed.

Lemma comps_cp_normpath p : isabs p = true -> comps_cp (normpath p) = walk [] (split_sep p).
Proof.
  intros H. destruct (normpath_abs p H) as (k & Hk & -> & _).
  assert (Hc : Forall clean (walk [] (split_sep p)))
    by (apply walk_clean; [constructor|apply split_sep_noslash]).
  apply filter_split_slashes; [reflexivity| |apply clean_split; assumption].
  eapply Forall_impl; [|exact Hc]. apply clean_not_curdir.
Qed.

(** ** join2 *)
Lemma walk_app here a b : walk here (a ++ b) = walk (walk here a) b.
Proof. apply fold_left_app. Qed.

Lemma walk_nil_comp here : walk_step here [] = here.
Proof. reflexivity. Qed.

Lemma ends_sep_split a : ends_sep a = true -> exists a', a = a' ++ [sep].
Proof.
  induction a as [|c r IH]; [discriminate|]. cbn. destruct r as [|c' r'].
  - destruct (ascii_dec c sep) as [->|]; [|discriminate]. exists []. reflexivity.
  - intros H. destruct (IH H) as [a' Ha]. exists (c :: a'). cbn. rewrite <- Ha. reflexivity.
Qed.

Lemma isabs_join2 a b : isabs a = true -> isabs (join2 a b) = true.
Proof.
  unfold join2. intros Ha. destruct (isabs b) eqn:Hb; [assumption|].
  destruct a as [|c r]; [discriminate|].
  destruct (ends_sep (c :: r)); exact Ha.
Qed.

Lemma walk_join2 a b : isabs a = true ->
  walk [] (split_sep (join2 a b)) =
  if isabs b then walk [] (split_sep b) else walk (walk [] (split_sep a)) (split_sep b).
Proof.
  intros Ha. unfold join2. destruct (isabs b); [reflexivity|].
  destruct a as [|c r] eqn:Ea; [discriminate|]. rewrite <- Ea in *. clear Ea.
  destruct (ends_sep a) eqn:Ee.
  - destruct (ends_sep_split a Ee) as [a' ->].
    rewrite <- app_assoc. cbn [app]. rewrite !split_app, !walk_app. cbn. reflexivity.
  - rewrite split_app, walk_app. reflexivity.
Qed.

(** ** os_loc is the specification's location *)
Lemma location_eq cwd p : location cwd p =
  if isabs p then walk [] (split_sep p) else walk (walk [] (split_sep cwd)) (split_sep p).
Proof.
  unfold location, isabs. rewrite !components_split. change "/"%char with sep.
  destruct p as [|c r]; [reflexivity|]. destruct (ascii_dec c sep); reflexivity.
Qed.

Lemma abspath_isabs cwd p : absolute cwd -> isabs (abspath cwd p) = true.
Proof.
  intros Hc. apply absolute_isabs in Hc. unfold abspath. apply normpath_isabs.
  destruct (isabs p) eqn:E; [assumption|]. apply isabs_join2; assumption.
Qed.

Lemma walk_abspath_arg cwd p : absolute cwd ->
  walk [] (split_sep (if isabs p then p else join2 cwd p)) = location cwd p.
Proof.
  intros Hc. apply absolute_isabs in Hc. rewrite location_eq.
  destruct (isabs p) eqn:E; [reflexivity|].
  rewrite walk_join2 by assumption. rewrite E. reflexivity.
Qed.

Lemma abspath_arg_isabs cwd p : absolute cwd -> isabs (if isabs p then p else join2 cwd p) = true.
Proof.
  intros Hc. apply absolute_isabs in Hc. destruct (isabs p) eqn:E; [assumption|].
  apply isabs_join2; assumption.
Qed.

Lemma comps_ne_abspath cwd p : absolute cwd -> comps_ne (abspath cwd p) = location cwd p.
Proof.
  intros Hc. unfold abspath. rewrite comps_ne_normpath by (apply abspath_arg_isabs; assumption).
  apply walk_abspath_arg; assumption.
Qed.

Lemma comps_cp_abspath cwd p : absolute cwd -> comps_cp (abspath cwd p) = location cwd p.
Proof.
  intros Hc. unfold abspath. rewrite comps_cp_normpath by (apply abspath_arg_isabs; assumption).
  apply walk_abspath_arg; assumption.
Qed.

Lemma os_loc_location cwd p : absolute cwd -> os_loc cwd p = location cwd p.
Proof. apply comps_ne_abspath. Qed.

Lemma location_clean cwd p : Forall clean (location cwd p).
Proof.
  rewrite location_eq. destruct (isabs p).
  - apply walk_clean; [constructor|apply split_sep_noslash].
  - apply walk_clean; [|apply split_sep_noslash].
    apply walk_clean; [constructor|apply split_sep_noslash].
Qed.

Lemma location_join2 cwd a b : absolute a ->
  location cwd (join2 a b) = if isabs b then location cwd b else walk (location cwd a) (split_sep b).
Proof.
  intros Ha. apply absolute_isabs in Ha. rewrite !location_eq.
  rewrite isabs_join2, walk_join2, Ha by assumption. destruct (isabs b); reflexivity.
Qed.

(** ** Walking clean components goes straight down *)
Lemma walk_step_clean here c : clean c -> walk_step here c = here ++ [c].
Proof.
  intros (H1&H2&H3&_). unfold walk_step.
  change ($"") with (@nil ascii). change ($".") with dot. change ($"..") with dotdot.
  destruct (str_eq_dec c []); [contradiction|].
  destruct (str_eq_dec c dot); [contradiction|].
  destruct (str_eq_dec c dotdot); [contradiction|reflexivity].
Qed.

Lemma walk_clean_app here cs : Forall clean cs -> walk here cs = here ++ cs.
Proof.
  intros H. revert here. induction H as [|c cs Hc H IH]; intros here.
  - symmetry. apply app_nil_r.
  - change (walk here (c :: cs)) with (walk (walk_step here c) cs).
    rewrite walk_step_clean, IH by assumption. rewrite <- app_assoc. reflexivity.
Qed.

Lemma walk_filter here cs : walk here cs = walk here (filter not_curdir cs).
Proof.
  revert here. induction cs as [|c cs IH]; intros here; [reflexivity|].
  cbn [filter]. unfold not_curdir at 1, nonempty. cbn [walk fold_left].
  destruct (str_eq_dec c dot) as [->|]; [exact (IH here)|].
  destruct (str_eq_dec c []) as [->|]; [exact (IH here)|]. cbn [fold_left].
  exact (IH (walk_step here c)).
Qed.

Lemma comps_cp_Forall p : Forall (fun c => c <> [] /\ c <> dot /\ noslash c) (comps_cp p).
Proof.
  apply Forall_forall. intros c Hc. apply filter_In in Hc as [H1 H2].
  unfold not_curdir, nonempty in H2.
  destruct (str_eq_dec c dot); [discriminate|]. destruct (str_eq_dec c []); [discriminate|].
  pose proof (split_sep_noslash p) as H. rewrite Forall_forall in H. auto.
Qed.

Lemma comps_cp_no_dotdot p : ~ In dotdot (comps_cp p) -> Forall clean (comps_cp p).
Proof.
  intros H. pose proof (comps_cp_Forall p) as Hf. rewrite Forall_forall in *.
  intros c Hc. destruct (Hf c Hc) as (H1&H2&H3). repeat split; auto.
  intros ->. contradiction.
Qed.

Lemma location_no_dotdot cwd d : absolute d -> ~ In dotdot (comps_cp d) -> location cwd d = comps_cp d.
Proof.
  intros Hd Hn. apply absolute_isabs in Hd. rewrite location_eq, Hd.
  rewrite walk_filter. change (filter not_curdir (split_sep d)) with (comps_cp d).
  rewrite walk_clean_app by (apply comps_cp_no_dotdot; assumption). reflexivity.
Qed.

(** ** Longest common prefix *)
Lemma lcp_prefix_iff a b : lcp a b = a <-> exists r, b = a ++ r.
Proof.
  split.
  - revert b. induction a as [|x a IH]; intros b H; [exists b; reflexivity|].
    destruct b as [|y b]; [discriminate|]. cbn in H.
    destruct (str_eq_dec x y) as [->|]; [|discriminate].
    inversion H as [H']. rewrite H'. destruct (IH b H') as [r ->]. exists r; reflexivity.
  - intros [r ->]. induction a as [|x a IH]; [reflexivity|]. cbn.
    destruct (str_eq_dec x x); [rewrite IH; reflexivity|congruence].
Qed.

Lemma lcp_incl a b : forall c, In c (lcp a b) -> In c a.
Proof.
  revert b. induction a as [|x a IH]; intros b c H; [contradiction|].
  destruct b as [|y b]; [contradiction|]. cbn in H.
  destruct (str_eq_dec x y); [|contradiction]. destruct H as [->|H]; [left|right]; eauto.
Qed.

(** ** joinN of slash-free names is join_sep *)
Lemma ends_sep_noslash_app a b : noslash b -> b <> [] -> ends_sep (a ++ b) = false.
Proof.
  intros Hb Hn. destruct (ends_sep (a ++ b)) eqn:E; [|reflexivity]. exfalso.
  destruct (ends_sep_split _ E) as [a' H].
  destruct (exists_last Hn) as (b' & x & ->). rewrite app_assoc in H.
  apply app_inj_tail in H as [_ ->]. apply Hb. apply in_or_app. right; left; reflexivity.
Qed.

Lemma noslash_not_isabs b : noslash b -> isabs b = false.
Proof.
  destruct b as [|c r]; intros H; [reflexivity|]. cbn.
  destruct (ascii_dec c sep) as [->|]; [|reflexivity]. exfalso. apply H. left; reflexivity.
Qed.

Lemma join2_noslash a x b : noslash x -> x <> [] -> noslash b ->
  join2 (a ++ x) b = a ++ x ++ sep :: b.
Proof.
  intros Hx Hn Hb. unfold join2. rewrite (noslash_not_isabs b Hb).
  destruct (a ++ x) as [|c r] eqn:E.
  - apply app_eq_nil in E as [_ E]; contradiction.
  - rewrite <- E. rewrite ends_sep_noslash_app by assumption.
    rewrite <- app_assoc. reflexivity.
Qed.

Lemma joinN_join_sep x l : Forall clean (x :: l) -> joinN x l = join_sep (x :: l).
Proof.
  enough (H : forall l a x, Forall clean (x :: l) -> joinN (a ++ x) l = a ++ join_sep (x :: l))
    by (exact (H l [] x)).
  clear. induction l as [|y l IH]; intros a x H; [reflexivity|].
  inversion H as [|? ? Hx Hl]; subst. inversion Hl as [|? ? Hy Hl']; subst.
  unfold joinN. cbn [fold_left]. rewrite join2_noslash; [| | |].
  - replace (a ++ x ++ sep :: y) with ((a ++ x ++ [sep]) ++ y) by (rewrite <- !app_assoc; reflexivity).
    change (fold_left join2 l ((a ++ x ++ [sep]) ++ y)) with (joinN ((a ++ x ++ [sep]) ++ y) l).
    rewrite IH by assumption. rewrite <- !app_assoc. reflexivity.
  - apply Hx.
  - apply Hx.
  - apply Hy.
Qed.

(** ** split_last_sep / path_split *)
Lemma split_last_sep_app p : fst (split_last_sep p) ++ snd (split_last_sep p) = p.
Proof.
  induction p as [|c r IH]; [reflexivity|]. cbn.
  destruct (split_last_sep r) as [h t]. cbn in IH. destruct h as [|a h].
  - destruct (ascii_dec c sep) as [->|]; cbn; cbn in IH; subst t; reflexivity.
  - cbn in *. subst r. reflexivity.
Qed.

Lemma split_last_sep_tail p : noslash (snd (split_last_sep p)).
Proof.
  induction p as [|c r IH]; [intros []|]. cbn.
  destruct (split_last_sep r) as [h t]. cbn in IH. destruct h; [|exact IH].
  destruct (ascii_dec c sep); [exact IH|]. cbn. intros [H|H]; [congruence|contradiction].
Qed.

Lemma split_last_sep_head p : fst (split_last_sep p) = [] \/ ends_sep (fst (split_last_sep p)) = true.
Proof.
  induction p as [|c r IH]; [left; reflexivity|]. cbn.
  destruct (split_last_sep r) as [h t]. cbn in IH. destruct h as [|a h].
  - destruct (ascii_dec c sep) as [->|]; [right; reflexivity|left; reflexivity].
  - destruct IH as [IH|IH]; [discriminate|]. right. exact IH.
Qed.

Lemma split_last_sep_uniq h t : noslash t -> (h = [] \/ ends_sep h = true) ->
  split_last_sep (h ++ t) = (h, t).
Proof.
  intros Ht Hh.
  pose proof (split_last_sep_app (h ++ t)) as H1.
  pose proof (split_last_sep_tail (h ++ t)) as H2.
  pose proof (split_last_sep_head (h ++ t)) as H3.
  destruct (split_last_sep (h ++ t)) as [h' t']. cbn in *.
  assert (E : forall (h1 t1 h2 t2 : str), h1 ++ t1 = h2 ++ t2 -> noslash t1 -> noslash t2 ->
            (h1 = [] \/ ends_sep h1 = true) -> (h2 = [] \/ ends_sep h2 = true) -> h1 = h2 /\ t1 = t2).
  { clear. induction h1 as [|c h1 IH]; intros t1 h2 t2 E H1 H2 E1 E2.
    - destruct h2 as [|c2 h2]; [split; [reflexivity|exact E]|]. exfalso.
      destruct E2 as [E2|E2]; [discriminate|].
      destruct (ends_sep_split _ E2) as [z Hz]. cbn [app] in E. rewrite E in H1.
      apply H1. change (c2 :: h2 ++ t2) with ((c2 :: h2) ++ t2). rewrite Hz.
      apply in_or_app; left. apply in_or_app; right; left; reflexivity.
    - destruct h2 as [|c2 h2].
      + exfalso. destruct E1 as [E1|E1]; [discriminate|].
        destruct (ends_sep_split _ E1) as [z Hz]. cbn [app] in E. rewrite <- E in H2.
        apply H2. change (c :: h1 ++ t1) with ((c :: h1) ++ t1). rewrite Hz.
        apply in_or_app; left. apply in_or_app; right; left; reflexivity.
      + inversion E; subst.
        destruct (IH t1 h2 t2) as [-> ->]; try assumption; [| |split; reflexivity].
        * destruct h1; [left; reflexivity|right]. destruct E1 as [E1|E1]; [discriminate|exact E1].
        * destruct h2; [left; reflexivity|right]. destruct E2 as [E2|E2]; [discriminate|exact E2]. }
  destruct (E h' t' h t); try assumption; congruence.
Qed.

Lemma rstrip_sep_app s : exists k, s = rstrip_sep s ++ repeat sep k.
Proof.
  induction s as [|c r [k IH]]; [exists 0; reflexivity|]. cbn.
  destruct (rstrip_sep r) as [|a r'] eqn:E.
  - cbn in IH. destruct (ascii_dec c sep) as [->|].
    + exists (S k). cbn. congruence.
    + exists k. cbn. congruence.
  - exists k. cbn in *. congruence.
Qed.

Lemma rstrip_sep_ends s : ends_sep (rstrip_sep s) = false.
Proof.
  induction s as [|c r IH]; [reflexivity|]. cbn.
  destruct (rstrip_sep r) as [|a r'] eqn:E.
  - destruct (ascii_dec c sep); [reflexivity|]. cbn. destruct (ascii_dec c sep); [contradiction|reflexivity].
  - cbn. exact IH.
Qed.

Lemma rstrip_sep_nil s : rstrip_sep s = [] -> all_sep s = true.
Proof.
  induction s as [|c r IH]; [reflexivity|]. cbn.
  destruct (rstrip_sep r) as [|a r'] eqn:E; [|discriminate].
  destruct (ascii_dec c sep); [|discriminate]. intros _. apply IH. reflexivity.
Qed.

Lemma rstrip_sep_id s : ends_sep s = false -> rstrip_sep s = s.
Proof.
  intros H. destruct (rstrip_sep_app s) as [k Hk]. destruct k as [|k].
  - cbn in Hk. rewrite app_nil_r in Hk. congruence.
  - exfalso. assert (E : ends_sep s = true); [|congruence].
    rewrite Hk. replace (repeat sep (S k)) with (repeat sep k ++ [sep]).
    + rewrite app_assoc. generalize (rstrip_sep s ++ repeat sep k). clear. intros l.
      induction l as [|c l IH]; [reflexivity|]. cbn. destruct (l ++ [sep]) eqn:E; [|exact IH].
      destruct l; discriminate.
    + clear. induction k; [reflexivity|]. cbn in *. congruence.
Qed.

(** ** normpath of the re-joined split *)
Lemma norm_fold_skip ini k acc :
  fold_left (norm_step ini) (repeat [] k) acc = acc.
Proof. induction k as [|k IH]; [reflexivity|]. exact IH. Qed.

Lemma split_repeat_sep k t : split_sep (repeat sep k ++ t) = repeat [] k ++ split_sep t.
Proof.
  induction k as [|k IH]; [reflexivity|]. cbn [repeat app split_sep].
  destruct (ascii_dec sep sep); [|congruence]. rewrite IH. reflexivity.
Qed.

Lemma initial_slashes_app h x y : all_sep h = false -> initial_slashes (h ++ x) = initial_slashes (h ++ y).
Proof.
  intros H. unfold initial_slashes.
  destruct h as [|a [|b [|c r]]]; cbn [app all_sep forallb] in *; [discriminate| | |reflexivity].
  - destruct (ascii_dec a sep); [discriminate|].
    destruct x as [|? [|? ?]], y as [|? [|? ?]]; cbn; destruct (ascii_dec a sep); congruence.
  - destruct (ascii_dec a sep).
    + destruct (ascii_dec b sep); [discriminate|].
      destruct x as [|? ?], y as [|? ?]; reflexivity.
    + destruct x as [|? ?], y as [|? ?]; reflexivity.
Qed.

Lemma normpath_cons c r : normpath (c :: r) =
  match repeat sep (initial_slashes (c :: r)) ++
        join_sep (rev (fold_left (norm_step (initial_slashes (c :: r))) (split_sep (c :: r)) [])) with
  | [] => dot | q => q end.
Proof. reflexivity. Qed.

Lemma normpath_nonnil p : p <> [] -> normpath p =
  match repeat sep (initial_slashes p) ++
        join_sep (rev (fold_left (norm_step (initial_slashes p)) (split_sep p) [])) with
  | [] => dot | q => q end.
Proof. destruct p; [congruence|]. intros _. apply normpath_cons. Qed.

Lemma all_sep_repeat s : all_sep s = true -> exists k, s = repeat sep k.
Proof.
  induction s as [|c r IH]; cbn; [exists 0; reflexivity|].
  destruct (ascii_dec c sep) as [->|]; [|discriminate]. intros H.
  destruct (IH H) as [k ->]. exists (S k). reflexivity.
Qed.

Lemma path_split_join p : normpath (join2 (fst (path_split p)) (snd (path_split p))) = normpath p.
Proof.
  unfold path_split.
  pose proof (split_last_sep_app p) as H1.
  pose proof (split_last_sep_tail p) as H2.
  pose proof (split_last_sep_head p) as H3.
  destruct (split_last_sep p) as [h t]. cbn [fst snd] in *.
  destruct (all_sep h) eqn:Ha.
  - unfold join2. rewrite (noslash_not_isabs t H2). destruct h as [|c h'].
    + cbn in H1. congruence.
    + destruct H3 as [H3|H3]; [discriminate|]. rewrite H3. congruence.
  - unfold join2. rewrite (noslash_not_isabs t H2).
    destruct (rstrip_sep h) as [|c r] eqn:Er.
    + rewrite (rstrip_sep_nil h Er) in Ha. discriminate.
    + rewrite <- Er. rewrite rstrip_sep_ends.
      destruct (rstrip_sep_app h) as [k Hk].
      assert (Hk0 : k <> 0).
      { intros ->. cbn in Hk. rewrite app_nil_r in Hk.
        destruct H3 as [H3|H3]; [rewrite H3 in Ha; discriminate|].
        pose proof (rstrip_sep_ends h). congruence. }
      destruct k as [|k]; [congruence|].
      assert (Hs : all_sep (rstrip_sep h) = false).
      { destruct (all_sep (rstrip_sep h)) eqn:E; [|reflexivity].
        destruct (all_sep_repeat _ E) as [j Hj]. exfalso.
        assert (all_sep h = true); [|congruence].
        rewrite Hk, Hj, <- repeat_app. clear. unfold all_sep.
        induction (j + S k); [reflexivity|]. cbn. destruct (ascii_dec sep sep); congruence. }
      assert (Ep : p = rstrip_sep h ++ sep :: repeat sep k ++ t).
      { rewrite <- H1, Hk at 1. cbn [repeat]. rewrite <- app_assoc. reflexivity. }
      rewrite Ep. rewrite !normpath_nonnil by (intros E; apply app_eq_nil in E as [_ E]; discriminate).
      rewrite (initial_slashes_app _ (sep :: t) (sep :: repeat sep k ++ t) Hs).
      rewrite !split_app, split_repeat_sep, !fold_left_app, norm_fold_skip. reflexivity.
Qed.

(** path_split of clean components *)
Lemma join_sep_snoc l x : l <> [] -> join_sep (l ++ [x]) = join_sep l ++ sep :: x.
Proof.
  induction l as [|y l IH]; intros H; [congruence|]. destruct l as [|z l].
  - reflexivity.
  - change (join_sep ((y :: z :: l) ++ [x])) with (y ++ sep :: join_sep ((z :: l) ++ [x])).
    rewrite IH by discriminate.
    change (join_sep (y :: z :: l)) with (y ++ sep :: join_sep (z :: l)).
    rewrite <- app_assoc. reflexivity.
Qed.

Lemma join_sep_ends l : Forall clean l -> ends_sep (join_sep l) = false.
Proof.
  intros H. destruct l as [|y l]; [reflexivity|].
  destruct (exists_last (l := y :: l)) as (l' & x & E); [discriminate|]. rewrite E in *.
  apply Forall_app in H as [_ H]. inversion H as [|? ? Hx _]; subst.
  destruct l' as [|z l'].
  - cbn. apply (ends_sep_noslash_app [] x); apply Hx.
  - rewrite join_sep_snoc by discriminate.
    change (join_sep (z :: l') ++ sep :: x) with (join_sep (z :: l') ++ [sep] ++ x).
    rewrite app_assoc. apply ends_sep_noslash_app; apply Hx.
Qed.

Lemma join_sep_not_all_sep l : Forall clean l -> l <> [] -> all_sep (join_sep l ++ [sep]) = false.
Proof.
  intros H Hn. destruct l as [|[|c x] l]; [congruence|inversion H as [|? ? Hx _]; subst; destruct Hx; congruence|].
  inversion H as [|? ? Hx _]; subst. destruct Hx as (_&_&_&Hx).
  destruct l; cbn; (destruct (ascii_dec c sep) as [->|]; [exfalso; apply Hx; left; reflexivity|reflexivity]).
Qed.

Lemma path_split_clean l x : Forall clean l -> clean x ->
  path_split (join_sep (l ++ [x])) = (join_sep l, x).
Proof.
  intros Hl Hx. unfold path_split. destruct l as [|y l].
  - cbn [app join_sep].
    pose proof (split_last_sep_uniq [] x) as E. cbn [app] in E.
    rewrite E by (apply Hx || (left; reflexivity)). reflexivity.
  - rewrite join_sep_snoc by discriminate.
    change (join_sep (y :: l) ++ sep :: x) with (join_sep (y :: l) ++ [sep] ++ x).
    rewrite app_assoc. rewrite split_last_sep_uniq.
    + rewrite join_sep_not_all_sep by (assumption || discriminate).
      f_equal.
      assert (G : forall s, ends_sep s = false -> rstrip_sep (s ++ [sep]) = s).
      { clear. intros s Hs. induction s as [|c s IH]; [reflexivity|].
        cbn [app rstrip_sep]. destruct s as [|c' s'].
        - cbn in *. destruct (ascii_dec c sep); [discriminate|reflexivity].
        - rewrite IH by exact Hs. reflexivity. }
      apply G. apply join_sep_ends. assumption.
    + apply Hx.
    + right. generalize (join_sep (y :: l)). intros s. induction s as [|c s IH]; [reflexivity|].
      cbn. destruct (s ++ [sep]) eqn:E; [destruct s; discriminate|exact IH].
Qed.

(** splitext loses nothing *)
Lemma lead_dots_app s : fst (lead_dots s) ++ snd (lead_dots s) = s.
Proof.
  induction s as [|c r IH]; [reflexivity|]. cbn. destruct (ascii_dec c dot_c); [|reflexivity].
  destruct (lead_dots r). cbn in *. congruence.
Qed.

Lemma split_last_dot_app s a b : split_last_dot s = Some (a, b) -> a ++ b = s.
Proof.
  revert a b. induction s as [|c r IH]; intros a b; [discriminate|]. cbn.
  destruct (split_last_dot r) as [[a' b']|].
  - intros H. inversion H; subst. cbn. f_equal. apply IH. reflexivity.
  - destruct (ascii_dec c dot_c); [|discriminate]. intros H. inversion H; subst. reflexivity.
Qed.

Lemma splitext_app p : fst (splitext p) ++ snd (splitext p) = p.
Proof.
  unfold splitext. pose proof (split_last_sep_app p) as H1.
  destruct (split_last_sep p) as [h t]. cbn in H1.
  pose proof (lead_dots_app t) as H2. destruct (lead_dots t) as [d r]. cbn in H2.
  destruct (split_last_dot r) as [[a b]|] eqn:E.
  - apply split_last_dot_app in E. cbn. rewrite <- !app_assoc. congruence.
  - cbn. apply app_nil_r.
Qed.
