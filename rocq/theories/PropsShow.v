(** C105: paths in messages. *)
From Coq Require Import Ascii String List Bool Arith Lia.
From Verif Require Import Base PosixModel FsModel PathModel PathSpec ShowModel PosixProof DirProof PathFacts MountProof PropsPath.
Import ListNotations.

(** Spec: the directory of the project is the nearest one, upwards from the working directory, that has a directory .dman. *)
Definition project (fs : node) (cwd : loc) (r : loc) : Prop :=
  searched cwd r /\ is_dir fs (r ++ [$".dman"]) = true
  /\ forall a, searched cwd a -> List.length r < List.length a -> is_dir fs (a ++ [$".dman"]) = false.

Lemma root_cases fs cwd :
  (exists r, project fs cwd r /\ get_root_path fs cwd false = Ok (r ++ [$".dman"], fs))
  \/ ((forall r, ~ project fs cwd r) /\ get_root_path fs cwd false = Exn RootError).
Proof.
  destruct (get_root_path fs cwd false) as [[l fs']|e] eqn:E.
  - left. destruct (C17_root_is_nearest _ _ _ _ _ E) as [(-> & a & H1 & -> & H2 & H3)|(X & _)]; [|discriminate].
    exists a. split; [split; [exact H1 | split; [exact H2 | exact H3]] | reflexivity].
  - right. assert (e = RootError) as ->. { unfold get_root_path in E. destruct (find_root fs (rev cwd)); [discriminate|]. inversion E. reflexivity. }
    split; [|reflexivity]. intros r (H1 & H2 & _). apply C17_root_error in E as [_ E]. rewrite (E r H1) in H2. discriminate.
Qed.
Lemma project_unique fs cwd r r' : project fs cwd r -> project fs cwd r' -> r = r'.
Proof.
  intros (H1 & H2 & H3) (K1 & K2 & K3). destruct H1 as [[a Ha] Hn]. destruct K1 as [[b Hb] Kn].
  assert (L : List.length r = List.length r').
  { destruct (Nat.lt_trichotomy (List.length r) (List.length r')) as [L|[L|L]]; [|exact L|].
    - rewrite (H3 r') in K2; [discriminate | split; [exists b; exact Hb | exact Kn] | exact L].
    - rewrite (K3 r) in H2; [discriminate | split; [exists a; exact Ha | exact Hn] | exact L]. }
  rewrite Ha in Hb. clear -Hb L. revert r' L Hb. induction r as [|x r IH]; intros [|y r'] L Hb; cbn in *; try discriminate; [reflexivity|].
  inversion Hb. f_equal. apply IH; [lia | assumption].
Qed.
Lemma clean_shown here rel : Forall clean rel -> isabs (match rel with [] => dot | _ => join_sep rel end) = false
  /\ walk here (components (match rel with [] => dot | _ => join_sep rel end)) = here ++ rel.
Proof.
  intros H. destruct rel as [|x r] eqn:E; [split; [reflexivity | cbn; rewrite app_nil_r; reflexivity]|]. rewrite <- E in *. split.
  - apply isabs_join_clean. exact H.
  - rewrite components_split, split_join; [apply walk_clean_app; exact H | apply clean_split; exact H | rewrite E; discriminate].
Qed.
Lemma not_abs p : isabs p = false -> ~ absolute p.
Proof. intros H A. apply absolute_isabs in A. congruence. Qed.

Lemma normalize_cases fs cwd path : absolute cwd ->
  (exists r rel, project fs (location cwd cwd) r /\ location cwd path = r ++ rel /\ Forall clean rel
     /\ normalize_path fs cwd path = Ok (match rel with [] => dot | _ => join_sep rel end))
  \/ ((forall r, project fs (location cwd cwd) r -> ~ inside (location cwd path) r) /\ normalize_path fs cwd path = Ok path).
Proof.
  intros Hc. unfold normalize_path. rewrite !os_loc_location by exact Hc.
  destruct (root_cases fs (location cwd cwd)) as [(r & P & ->)|[N ->]].
  - rewrite removelast_last. destruct (strip_prefix r (location cwd path)) as [rel|] eqn:E.
    + left. apply strip_prefix_iff in E. exists r, rel. split; [exact P|]. split; [exact E|]. split.
      * pose proof (location_clean cwd path) as C. rewrite E in C. apply Forall_app in C as [_ C]. exact C.
      * destruct rel; reflexivity.
    + right. split; [|reflexivity]. intros r' P' [x Hx]. rewrite (project_unique _ _ _ _ P' P) in Hx. apply strip_prefix_iff in Hx. congruence.
  - right. split; [intros r P; contradiction (N r P) | reflexivity].
Qed.
(** It never fails, in particular not without a project. *)
Theorem C105_never_fails : forall fs cwd path, absolute cwd -> exists s, normalize_path fs cwd path = Ok s.
Proof. intros fs cwd path Hc. destruct (normalize_cases fs cwd path Hc) as [(r & rel & _ & _ & _ & E)|[_ E]]; eexists; exact E. Qed.
(** Inside the project, what is shown leads to the place from the directory of the project, without going up; outside of it, and
    without a project, the path is shown as it is. *)
Theorem C105_inside : forall fs cwd path r s, absolute cwd -> project fs (location cwd cwd) r -> inside (location cwd path) r ->
  normalize_path fs cwd path = Ok s -> ~ absolute s /\ walk r (components s) = location cwd path /\ ~ In ($"..") (components s).
Proof.
  intros fs cwd path r s Hc P I E. destruct (normalize_cases fs cwd path Hc) as [(r' & rel & P' & L & C & E')|[N _]]; [|contradiction (N r P I)].
  rewrite (project_unique _ _ _ _ P P') in *. rewrite E in E'. injection E' as ->. destruct (clean_shown r' rel C) as [A W].
  split; [apply not_abs; exact A|]. split; [congruence|]. destruct rel as [|x q] eqn:Er.
  - cbn. intros [X|[]]. discriminate.
  - rewrite <- Er in *. rewrite components_split, split_join by (try (apply clean_split; exact C); rewrite Er; discriminate).
    intros X. rewrite Forall_forall in C. destruct (C _ X) as (_ & _ & D & _). apply D. reflexivity.
Qed.
Theorem C105_outside : forall fs cwd path, absolute cwd ->
  (forall r, project fs (location cwd cwd) r -> ~ inside (location cwd path) r) -> normalize_path fs cwd path = Ok path.
Proof.
  intros fs cwd path Hc N. destruct (normalize_cases fs cwd path Hc) as [(r & rel & P & L & _)|[_ E]]; [|exact E].
  contradiction (N r P). exists rel. exact L.
Qed.
(** Read from the working directory instead, it leads to the place only if that is the directory of the project. *)
Theorem C105_from_the_working_directory : forall fs cwd path r s, absolute cwd -> project fs (location cwd cwd) r ->
  inside (location cwd path) r -> normalize_path fs cwd path = Ok s -> (location cwd s = location cwd path <-> location cwd cwd = r).
Proof.
  intros fs cwd path r s Hc P I E. destruct (normalize_cases fs cwd path Hc) as [(r' & rel & P' & L & C & E')|[N _]]; [|contradiction (N r P I)].
  rewrite (project_unique _ _ _ _ P P') in *. rewrite E in E'. injection E' as ->. destruct (clean_shown (location cwd cwd) rel C) as [A W].
  assert (W2 : location cwd (match rel with [] => dot | _ => join_sep rel end) = location cwd cwd ++ rel).
  { rewrite <- W, location_eq, A, !components_split. f_equal. rewrite location_eq. apply absolute_isabs in Hc. rewrite Hc. reflexivity. }
  rewrite W2, L. split; [apply app_inv_tail | intros ->; reflexivity].
Qed.
(** Different places are never shown alike. *)
Theorem C105_distinct : forall fs cwd p q s, absolute cwd ->
  normalize_path fs cwd p = Ok s -> normalize_path fs cwd q = Ok s -> location cwd p = location cwd q.
Proof.
  assert (Mixed : forall fs cwd q r rel, absolute cwd -> project fs (location cwd cwd) r -> Forall clean rel ->
            q = (match rel with [] => dot | _ => join_sep rel end) -> ~ inside (location cwd q) r -> False).
  { intros fs cwd q r rel Hc ([[a Ha] _] & _) C -> N. destruct (clean_shown (location cwd cwd) rel C) as [A W]. apply N.
    assert (W2 : location cwd (match rel with [] => dot | _ => join_sep rel end) = location cwd cwd ++ rel).
    { rewrite <- W, location_eq, A, !components_split. f_equal. rewrite location_eq. apply absolute_isabs in Hc. rewrite Hc. reflexivity. }
    rewrite W2, Ha. exists (a ++ rel). rewrite app_assoc. reflexivity. }
  intros fs cwd p q s Hc Ep Eq.
  destruct (normalize_cases fs cwd p Hc) as [(r & rel & P & L & C & E)|[N E]];
  destruct (normalize_cases fs cwd q Hc) as [(r' & rel' & P' & L' & C' & E')|[N' E']]; rewrite E in Ep; rewrite E' in Eq;
  injection Ep as Ep; injection Eq as Eq.
  - rewrite (project_unique _ _ _ _ P P') in *. destruct (clean_shown r' rel C) as [_ W]. destruct (clean_shown r' rel' C') as [_ W'].
    rewrite L, L', <- W, <- W', Ep, Eq. reflexivity.
  - exfalso. apply (Mixed fs cwd q r rel Hc P C); [congruence | apply N'; exact P].
  - exfalso. apply (Mixed fs cwd p r' rel' Hc P' C'); [congruence | apply N; exact P'].
  - congruence.
Qed.

Example C105_ex :
  absolute ($"/w/mnt") /\ project ex_fs (location ($"/w/mnt") ($"/w/mnt")) [$"w"]
  /\ normalize_path ex_fs ($"/w/mnt") ($"sub/../a.json") = Ok ($"mnt/a.json")
  /\ normalize_path ex_fs ($"/w/mnt") ($"..") = Ok ($".")
  /\ normalize_path ex_fs ($"/w/mnt") ($"../../x") = Ok ($"../../x")
  /\ normalize_path (Dir [($"p", Dir [])]) ($"/p") ($"a/../b") = Ok ($"a/../b").
Proof.
  split; [eexists; reflexivity|]. split; [|vm_compute; auto].
  destruct (root_cases ex_fs (location ($"/w/mnt") ($"/w/mnt"))) as [(r & P & E)|[_ E]]; vm_compute in E; [|discriminate].
  assert (X : r ++ [$".dman"] = [$"w"] ++ [$".dman"]). { injection E as E. symmetry. exact E. }
  apply app_inv_tail in X. subst r. exact P.
Qed.

Print Assumptions C105_never_fails.
Print Assumptions C105_inside.
Print Assumptions C105_outside.
Print Assumptions C105_from_the_working_directory.
Print Assumptions C105_distinct.
