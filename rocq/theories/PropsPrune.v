(** C112: removing empty directories while other processes are at work. *)
From Coq Require Import Ascii String List Bool Arith Lia.
From Verif Require Import Base PosixModel FsModel PathModel PathSpec DirSpec PosixProof FsProof DirProof PruneModel.
Import ListNotations.

(** ** Specification *)
(** The others leave the file at [q] as it is. *)
Definition leaves (q : loc) (a : action) : Prop := forall fs, file_at (a fs) q = file_at fs q.
(** The others keep the content [c] of the file at [q] once it is there. *)
Definition keeps (q : loc) (c : content) (a : action) : Prop := forall fs, file_at fs q = Some c -> file_at (a fs) q = Some c.
(** The others make no directory at [q]. *)
Definition no_dir (q : loc) (a : action) : Prop := forall fs, is_dir (a fs) q = true -> is_dir fs q = true.
(** Another process writes a file, if it can. *)
Definition writing (q : loc) (c : content) : action := fun fs => match write_file fs q c with Ok fs' => fs' | Exn _ => fs end.

(** ** Lemmas on trees *)
Lemma lookup_replace_same l : forall fs k m, lookup fs l = Some k -> lookup (replace_at fs l m) l = Some m.
Proof.
  induction l as [|x l IH]; intros fs k m H; [reflexivity|]. cbn in *. destruct fs as [|es]; [discriminate|].
  destruct (assoc x es) as [n|] eqn:E; [|discriminate]. cbn. rewrite assoc_set_same. eapply IH; eassumption.
Qed.
Lemma replace_id l : forall fs k, lookup fs l = Some k -> replace_at fs l k = fs.
Proof.
  induction l as [|x l IH]; intros fs k H; cbn in *; [congruence|]. destruct fs as [|es]; [reflexivity|].
  destruct (assoc x es) as [n|] eqn:E; [|reflexivity]. rewrite (IH _ _ H), assoc_set_id by exact E. reflexivity.
Qed.
Lemma set_set {A} x (a b : A) es : assoc_set x b (assoc_set x a es) = assoc_set x b es.
Proof.
  induction es as [|[y v] es IH]; cbn; [destruct (str_eq_dec x x); congruence|].
  destruct (str_eq_dec y x) as [->|N]; cbn; [destruct (str_eq_dec x x); congruence|].
  destruct (str_eq_dec y x); [congruence|]. rewrite IH. reflexivity.
Qed.
Lemma del_set {A} x (a : A) es : assoc_del x (assoc_set x a es) = assoc_del x es.
Proof.
  induction es as [|[y v] es IH]; cbn; [destruct (str_eq_dec x x); congruence|].
  destruct (str_eq_dec y x) as [->|N]; cbn; [destruct (str_eq_dec x x); congruence|].
  destruct (str_eq_dec y x); [congruence|]. rewrite IH. reflexivity.
Qed.
Lemma replace_replace l : forall fs k a b, lookup fs l = Some k -> replace_at (replace_at fs l a) l b = replace_at fs l b.
Proof.
  induction l as [|x l IH]; intros fs k a b H; [reflexivity|]. cbn in *. destruct fs as [|es]; [discriminate|].
  destruct (assoc x es) as [n|] eqn:E; [|discriminate]. cbn. rewrite assoc_set_same, set_set, (IH _ _ _ _ H). reflexivity.
Qed.
Lemma delete_replace l : forall fs k a, l <> [] -> lookup fs l = Some k -> delete_at (replace_at fs l a) l = delete_at fs l.
Proof.
  induction l as [|x l IH]; intros fs k a N H; [congruence|]. cbn in H. destruct fs as [|es]; [discriminate|].
  destruct (assoc x es) as [n|] eqn:E; [|discriminate]. cbn [replace_at]. rewrite E. cbn [delete_at]. destruct l as [|y l].
  - rewrite del_set. reflexivity.
  - rewrite assoc_set_same, E, set_set. rewrite (IH n k a) by (try discriminate; exact H). reflexivity.
Qed.
Lemma replace_app l : forall fs es x m, lookup fs l = Some (Dir es) ->
  replace_at fs (l ++ [x]) m = replace_at fs l (replace_at (Dir es) [x] m).
Proof.
  induction l as [|y l IH]; intros fs es x m H; [cbn in H; inversion H; reflexivity|]. cbn [app replace_at]. cbn in H.
  destruct fs as [|fe]; [discriminate|]. destruct (assoc y fe) as [n|] eqn:E; [|discriminate]. rewrite (IH _ _ _ _ H). reflexivity.
Qed.
Lemma delete_app l : forall fs es x, lookup fs l = Some (Dir es) -> delete_at fs (l ++ [x]) = replace_at fs l (Dir (assoc_del x es)).
Proof.
  induction l as [|y l IH]; intros fs es x H; [cbn in H; inversion H; reflexivity|]. cbn in H.
  destruct fs as [|fe]; [discriminate|]. destruct (assoc y fe) as [n|] eqn:E; [|discriminate].
  cbn [app delete_at replace_at]. rewrite E, (IH _ _ _ H). destruct (l ++ [x]) eqn:El; [destruct l; discriminate|]. reflexivity.
Qed.

Lemma assoc_mid {A} a x (m : A) r : ~ In x (map fst a) -> assoc x (a ++ (x, m) :: r) = Some m.
Proof.
  induction a as [|[y v] a IH]; cbn; intros H; [destruct (str_eq_dec x x); congruence|].
  destruct (str_eq_dec y x); [exfalso; auto|]. apply IH. auto.
Qed.
Lemma set_mid {A} a x (m m' : A) r : ~ In x (map fst a) -> assoc_set x m' (a ++ (x, m) :: r) = a ++ (x, m') :: r.
Proof.
  induction a as [|[y v] a IH]; cbn; intros H; [destruct (str_eq_dec x x); congruence|].
  destruct (str_eq_dec y x); [exfalso; auto|]. rewrite IH by auto. reflexivity.
Qed.
Lemma del_none {A} x (a : list (str * A)) : ~ In x (map fst a) -> assoc_del x a = a.
Proof.
  induction a as [|[y v] a IH]; cbn; intros H; [reflexivity|].
  destruct (str_eq_dec y x); [exfalso; auto|]. rewrite IH by auto. reflexivity.
Qed.
Lemma del_mid {A} a x (m : A) r : ~ In x (map fst a) -> ~ In x (map fst r) -> assoc_del x (a ++ (x, m) :: r) = a ++ r.
Proof.
  induction a as [|[y v] a IH]; cbn; intros H H'.
  - destruct (str_eq_dec x x); [apply del_none; exact H'|congruence].
  - destruct (str_eq_dec y x); [exfalso; auto|]. rewrite IH by auto. reflexivity.
Qed.
Lemma pruned_names es x : In x (map fst (prune_entries es)) -> In x (map fst es).
Proof.
  induction es as [|[y m] es IH]; cbn; [auto|]. destruct (prune m) as [[] m']; cbn; intros H; [destruct H|]; auto.
Qed.
Lemma pruned_app a b : prune_entries (a ++ b) = prune_entries a ++ prune_entries b.
Proof.
  induction a as [|[y m] a IH]; cbn; [reflexivity|]. destruct (prune m) as [[] m']; rewrite IH; reflexivity.
Qed.
Lemma others_none fs : others (fs, []) = (fs, []).
Proof. reflexivity. Qed.

(** ** Nobody interferes *)
Definition one_result (n : node) (fs : node) (l : loc) : res bool * state :=
  (Ok (fst (prune n)), (if fst (prune n) then replace_at fs l (snd (prune n)) else delete_at fs l, [])).

Lemma names_alone d (one : nat -> loc -> state -> res bool * state) : forall rest done keep fs l,
  NoDup (map fst (done ++ rest)) ->
  lookup fs l = Some (Dir (prune_entries done ++ rest)) ->
  (forall x m fs', In (x, m) rest -> lookup fs' (l ++ [x]) = Some m -> one d (l ++ [x]) (fs', []) = one_result m fs' (l ++ [x])) ->
  prune_names (one d) l (map fst rest) keep (fs, [])
  = (Ok (keep || match prune_entries rest with [] => false | _ => true end), (replace_at fs l (Dir (prune_entries (done ++ rest))), [])).
Proof.
  induction rest as [|[x m] rest IH]; intros done keep fs l Hn Hl Ho.
  - cbn. rewrite app_nil_r in *. rewrite orb_false_r, (replace_id _ _ _ Hl). reflexivity.
  - cbn [map fst prune_names].
    assert (Hx : ~ In x (map fst (prune_entries done)) /\ ~ In x (map fst rest)).
    { rewrite map_app in Hn. apply NoDup_remove_2 in Hn. rewrite in_app_iff in Hn.
      split; intros H; apply Hn; [left; apply pruned_names; exact H|right; exact H]. }
    destruct Hx as [Hx1 Hx2].
    rewrite (Ho x m fs) by (try (left; reflexivity); rewrite lookup_app, Hl; cbn; rewrite assoc_mid by exact Hx1; reflexivity).
    unfold one_result. destruct (prune m) as [k m'] eqn:Ep. cbn [fst snd].
    assert (Hn' : NoDup (map fst ((done ++ [(x, m)]) ++ rest))) by (rewrite <- app_assoc; exact Hn).
    set (fs1 := if k then replace_at fs (l ++ [x]) m' else delete_at fs (l ++ [x])).
    assert (E1 : fs1 = replace_at fs l (Dir (prune_entries (done ++ [(x, m)]) ++ rest))).
    { unfold fs1. rewrite pruned_app. cbn [prune_entries]. rewrite Ep. destruct k.
      - rewrite (replace_app _ _ _ _ _ Hl). cbn [replace_at]. rewrite assoc_mid, set_mid by exact Hx1. rewrite <- app_assoc. reflexivity.
      - rewrite (delete_app _ _ _ _ Hl), del_mid, app_nil_r by assumption. reflexivity. }
    rewrite (IH (done ++ [(x, m)]) (keep || k) fs1 l Hn').
    + rewrite E1, (replace_replace _ _ _ _ _ Hl), <- app_assoc. cbn [app prune_entries]. rewrite Ep.
      destruct keep, k; cbn; reflexivity.
    + rewrite E1. eapply lookup_replace_same; eassumption.
    + intros y m2 fs' Hi. apply Ho. right; exact Hi.
Qed.

Lemma prune_calls_step n root l fs es : lookup fs l = Some (Dir es) ->
  prune_calls (S n) root l (fs, []) =
  match prune_names (prune_calls n false) l (map fst es) false (fs, []) with
  | (Exn e, s4) => (Exn e, s4)
  | (Ok true, s4) => (Ok true, s4)
  | (Ok false, s4) => if root then (Ok false, s4)
      else let s5 := others s4 in match rmdir (fst s5) l with Exn e => (Exn e, s5) | Ok fs => (Ok false, (fs, snd s5)) end
  end.
Proof. intros H. cbn [prune_calls others fst snd]. unfold exists_at, is_dir, listdir. rewrite H. reflexivity. Qed.

Lemma entries_alone es :
  Forall (fun e => well_formed (snd e) -> exists d, forall fuel, d <= fuel -> forall fs l, l <> [] -> lookup fs l = Some (snd e) ->
            prune_calls fuel false l (fs, []) = one_result (snd e) fs l) es ->
  Forall (fun e => well_formed (snd e)) es ->
  exists d, forall fuel, d <= fuel -> forall (x : str) (m : node), In (x, m) es -> forall fs l, l <> [] -> lookup fs l = Some m ->
            prune_calls fuel false l (fs, []) = one_result m fs l.
Proof.
  induction es as [|[x m] es IH]; intros H W; [exists 0; intros ? ? ? ? []|].
  inversion H as [|? ? H1 H2]; subst. inversion W as [|? ? W1 W2]; subst. cbn in H1, W1.
  destruct (H1 W1) as [d1 D1]. destruct (IH H2 W2) as [d2 D2]. exists (d1 + d2). intros fuel L y m2 [E|Hi] fs l N Hl.
  - inversion E; subst. apply D1; [lia|assumption|assumption].
  - apply (D2 fuel ltac:(lia) y m2 Hi); assumption.
Qed.

Lemma calls_alone n : well_formed n -> exists d, forall fuel, d <= fuel -> forall fs l, l <> [] -> lookup fs l = Some n ->
  prune_calls fuel false l (fs, []) = one_result n fs l.
Proof.
  induction n as [c|es IH] using node_ind'; intros Hw.
  - exists 1. intros fuel L fs l N Hl. destruct fuel as [|fuel]; [lia|]. cbn [prune_calls others fst snd]. unfold exists_at, is_dir.
    rewrite Hl. cbn. unfold one_result. cbn. rewrite (replace_id _ _ _ Hl). reflexivity.
  - apply wf_dir in Hw as [Hn Hw]. apply wf_entries_Forall in Hw. destruct (entries_alone es IH Hw) as [d D].
    exists (S d). intros fuel L fs l N Hl. destruct fuel as [|fuel]; [lia|]. rewrite (prune_calls_step _ _ _ _ _ Hl).
    rewrite (names_alone fuel (fun f => prune_calls f false) es [] false fs l Hn Hl).
    2:{ intros x m fs' Hi Hl'. apply (D fuel ltac:(lia) x m Hi fs' (l ++ [x])); [intros X; destruct l; discriminate X|exact Hl']. }
    unfold one_result. rewrite prune_dir. cbn [fst snd app orb]. destruct (prune_entries es) as [|e r] eqn:Ep; [|reflexivity].
    cbn zeta. rewrite others_none. cbn [fst snd]. unfold rmdir. rewrite (lookup_replace_same _ _ _ _ Hl).
    destruct l as [|y l]; [congruence|]. rewrite (delete_replace _ _ _ _ N Hl). reflexivity.
Qed.

(** Alone, the calls come to what is said of [prune_directories] elsewhere (C15), and none of them fails. *)
Theorem C112_alone : forall fs l, well_formed fs -> exists d, forall fuel, d <= fuel ->
  exists keep, prune_calls fuel true l (fs, []) = (Ok keep, (prune_directories fs l, [])).
Proof.
  intros fs l Hw. unfold prune_directories. destruct (lookup fs l) as [[c|es]|] eqn:Hl.
  - exists 1. intros [|fuel] L; [lia|]. exists true. cbn [prune_calls others fst snd]. unfold exists_at, is_dir. rewrite Hl. cbn.
    rewrite (replace_id _ _ _ Hl). reflexivity.
  - assert (Hd := lookup_wf _ _ _ Hw Hl). apply wf_dir in Hd as [Hn He]. apply wf_entries_Forall in He.
    destruct (entries_alone es) as [d D]; [|exact He|].
    { apply Forall_forall. intros [x m] _. apply calls_alone. }
    exists (S d). intros [|fuel] L; [lia|]. rewrite (prune_calls_step _ _ _ _ _ Hl).
    rewrite (names_alone fuel (fun f => prune_calls f false) es [] false fs l Hn Hl).
    2:{ intros x m fs' Hi Hl'. apply (D fuel ltac:(lia) x m Hi fs' (l ++ [x])); [intros X; destruct l; discriminate X|exact Hl']. }
    rewrite prune_dir. cbn [snd app orb]. destruct (prune_entries es); eexists; reflexivity.
  - exists 1. intros [|fuel] L; [lia|]. exists false. cbn [prune_calls others fst snd]. unfold exists_at. rewrite Hl. reflexivity.
Qed.
Print Assumptions C112_alone.

(** ** Others interfere *)
Section Invariant.
Variable I : state -> Prop.
Hypothesis I_others : forall s, I s -> I (others s).
Hypothesis I_rmdir : forall s l fs, I s -> rmdir (fst s) l = Ok fs -> I (fs, snd s).

Lemma names_inv one l : (forall l s, I s -> I (snd (one l s))) -> forall names keep s, I s -> I (snd (prune_names one l names keep s)).
Proof.
  intros H. induction names as [|x r IH]; intros keep s Hs; cbn; [exact Hs|].
  specialize (H (l ++ [x]) s Hs). destruct (one (l ++ [x]) s) as [[k|e] s']; cbn in H; [apply IH; exact H|exact H].
Qed.
Lemma calls_inv fuel : forall root l s, I s -> I (snd (prune_calls fuel root l s)).
Proof.
  induction fuel as [|n IH]; intros root l s Hs; cbn [prune_calls]; [exact Hs|].
  assert (H1 := I_others _ Hs). destruct (negb _); [exact H1|].
  assert (H2 := I_others _ H1). destruct (negb _); [exact H2|].
  assert (H3 := I_others _ H2). destruct (listdir _ l) as [names|e]; [|exact H3].
  assert (H4 := names_inv (prune_calls n false) l (fun l s => IH false l s) names false _ H3).
  destruct (prune_names _ _ _ _ _) as [[[]|e] s4]; cbn in H4; [exact H4| |exact H4].
  destruct root; [exact H4|]. assert (H5 := I_others _ H4). cbv zeta.
  destruct (rmdir _ l) as [fs|e] eqn:E; [|exact H5]. eapply I_rmdir; eassumption.
Qed.
End Invariant.

(** Removing a directory changes no file. *)
Lemma rmdir_file_at fs l fs' : rmdir fs l = Ok fs' -> forall q, file_at fs' q = file_at fs q.
Proof.
  unfold rmdir. destruct (lookup fs l) as [[c|[|e es]]|] eqn:E; try discriminate. destruct l as [|x l]; [discriminate|].
  intros H q. assert (fs' = delete_at fs (x :: l)) as -> by congruence.
  rewrite delete_at_file_at; [|intros q' N P; apply is_prefix_iff in P as [r ->]|discriminate].
  - destruct (loc_eq_dec q (x :: l)) as [->|]; [|reflexivity]. unfold file_at. rewrite E. reflexivity.
  - unfold file_at. rewrite lookup_app, E. destruct r; [rewrite app_nil_r in N; congruence|reflexivity].
Qed.

Lemma settle_leaves q acts : Forall (leaves q) acts -> forall fs, file_at (fold_left (fun fs a => a fs) acts fs) q = file_at fs q.
Proof. induction 1 as [|a acts H _ IH]; intros fs; cbn; [reflexivity|]. rewrite IH. apply H. Qed.
Lemma settle_keeps q c acts : Forall (keeps q c) acts -> forall fs, file_at fs q = Some c -> file_at (fold_left (fun fs a => a fs) acts fs) q = Some c.
Proof. induction 1 as [|a acts H _ IH]; intros fs E; cbn; [exact E|]. apply IH, H, E. Qed.

(** A file that the others leave alone is as it was, whatever else they do; none appears either. *)
Theorem C112_files : forall fuel root l fs acts q, Forall (leaves q) acts ->
  file_at (settled (snd (prune_calls fuel root l (fs, acts)))) q = file_at fs q.
Proof.
  intros fuel root l fs acts q H.
  assert (X : (fun s : state => file_at (fst s) q = file_at fs q /\ Forall (leaves q) (snd s)) (snd (prune_calls fuel root l (fs, acts)))).
  { apply calls_inv; [| |auto].
    - intros [f a] [E F]. unfold others. cbn [snd fst] in *. destruct a as [|a r]; [auto|]. inversion F as [|? ? F1 F2]; subst. cbn. rewrite F1. auto.
    - intros [f a] l' f' [E F] R. cbn in *. rewrite (rmdir_file_at _ _ _ R). auto. }
  destruct X as [E F]. unfold settled. rewrite settle_leaves by exact F. exact E.
Qed.
Print Assumptions C112_files.

Lemma rmdir_is_dir fs l fs' : rmdir fs l = Ok fs' -> forall q, is_dir fs' q = true -> is_dir fs q = true.
Proof.
  unfold rmdir. destruct (lookup fs l) as [[c|[|e es]]|] eqn:E; try discriminate. destruct l as [|x l]; [discriminate|].
  intros H q. assert (fs' = delete_at fs (x :: l)) as -> by congruence.
  rewrite delete_at_is_dir; [|intros q' N P; apply is_prefix_iff in P as [r ->]|discriminate].
  - destruct (loc_eq_dec q (x :: l)); [discriminate|auto].
  - unfold is_dir. rewrite lookup_app, E. destruct r; [rewrite app_nil_r in N; congruence|reflexivity].
Qed.
Lemma file_dir fs d y c : file_at fs (d ++ [y]) = Some c -> is_dir fs d = true.
Proof.
  unfold file_at, is_dir. rewrite lookup_app. destruct (lookup fs d) as [[c0|es]|]; [discriminate|reflexivity|discriminate].
Qed.
Lemma writing_puts fs d x c : is_dir fs d = true -> is_dir fs (d ++ [x]) = false -> file_at (writing (d ++ [x]) c fs) (d ++ [x]) = Some c.
Proof.
  intros H N. destruct (write_file_ok fs d x c H N) as [fs' E]. unfold writing. rewrite E.
  rewrite (write_file_lookup _ _ _ _ E). destruct (loc_eq_dec (d ++ [x]) (d ++ [x])); congruence.
Qed.

(** A file that another process writes beside (or over) a file, at any moment while directories are removed, is there in the
    end if the others keep it. *)
Theorem C112_written : forall fuel root l fs before after d x y c c0,
  file_at fs (d ++ [y]) = Some c0 -> is_dir fs (d ++ [x]) = false ->
  Forall (leaves (d ++ [y])) before -> Forall (no_dir (d ++ [x])) before -> Forall (keeps (d ++ [x]) c) after ->
  file_at (settled (snd (prune_calls fuel root l (fs, before ++ writing (d ++ [x]) c :: after)))) (d ++ [x]) = Some c.
Proof.
  intros fuel root l fs before after d x y c c0 Hf Hd Hb Hb' Ha. set (q := d ++ [x]) in *.
  assert (X : (fun s : state =>
      (exists b, snd s = b ++ writing q c :: after /\ Forall (leaves (d ++ [y])) b /\ Forall (no_dir q) b
                 /\ file_at (fst s) (d ++ [y]) = Some c0 /\ is_dir (fst s) q = false)
      \/ (file_at (fst s) q = Some c /\ Forall (keeps q c) (snd s)))
                (snd (prune_calls fuel root l (fs, before ++ writing q c :: after)))).
  { apply calls_inv; [| |left; exists before; auto].
    - intros [f a] [(b & E & B1 & B2 & F & D)|[E F]]; unfold others; cbn [snd fst] in *.
      + destruct b as [|b0 b]; subst a; cbn [app].
        * right. cbn [fst snd]. split; [apply writing_puts; [eapply file_dir; exact F|exact D]|exact Ha].
        * inversion B1 as [|? ? B11 B12]; subst. inversion B2 as [|? ? B21 B22]; subst. left. exists b. cbn [fst snd].
          repeat split; auto; [rewrite B11; exact F|]. destruct (is_dir (b0 f) q) eqn:X; [|reflexivity]. apply B21 in X. congruence.
      + destruct a as [|a r]; [right; auto|]. inversion F as [|? ? F1 F2]; subst. right. cbn. auto.
    - intros [f a] l' f' [(b & E & B1 & B2 & F & D)|[E F]] R; cbn [fst snd] in *.
      + left. exists b. repeat split; auto; [rewrite (rmdir_file_at _ _ _ R); exact F|].
        destruct (is_dir f' q) eqn:X; [|reflexivity]. apply (rmdir_is_dir _ _ _ R) in X. congruence.
      + right. rewrite (rmdir_file_at _ _ _ R). auto. }
  unfold settled. destruct X as [(b & E & B1 & B2 & F & D)|[E F]]; [|apply settle_keeps; assumption].
  rewrite E, fold_left_app. cbn [fold_left]. apply settle_keeps; [exact Ha|]. apply writing_puts.
  - apply (file_dir _ _ y c0). rewrite settle_leaves by exact B1. exact F.
  - clear -B2 D. set (f := fst _) in *. clearbody f. revert f D. induction B2 as [|a b H _ IH]; intros f D; [exact D|].
    cbn. apply IH. destruct (is_dir (a f) q) eqn:X; [|reflexivity]. apply H in X. congruence.
Qed.
Print Assumptions C112_written.

(** ** Others work elsewhere *)
(** What is at [l] and below stays as it is. *)
Definition elsewhere (l : loc) (a : action) : Prop := forall fs, lookup (a fs) l = lookup fs l.

Lemma delete_deep q : q <> [] -> forall l fs n, lookup fs l = Some n -> lookup (delete_at fs (l ++ q)) l = Some (delete_at n q).
Proof.
  intros N. induction l as [|x l IH]; intros fs n H; [cbn in *; congruence|]. cbn in H. destruct fs as [|es]; [discriminate|].
  destruct (assoc x es) as [m|] eqn:E; [|discriminate]. cbn [app delete_at]. destruct (l ++ q) as [|y r] eqn:El; [destruct l; [cbn in El; congruence|discriminate]|].
  rewrite E. cbn [lookup]. rewrite assoc_set_same. apply IH. exact H.
Qed.
Lemma lookup_same l q f1 f2 : lookup f1 l = lookup f2 l -> lookup f1 (l ++ q) = lookup f2 (l ++ q).
Proof. intros H. rewrite !lookup_app, H. reflexivity. Qed.

Definition like (l : loc) (s1 s2 : state) : Prop := lookup (fst s1) l = lookup (fst s2) l /\ Forall (elsewhere l) (snd s1) /\ snd s2 = [].
Lemma others_like l s1 s2 : like l s1 s2 -> like l (others s1) (others s2).
Proof.
  intros (H & F & E). unfold like, others. rewrite E. destruct (snd s1) as [|a r] eqn:E1; [rewrite E1; auto|].
  inversion F as [|? ? F1 F2]; subst. cbn. rewrite F1. auto.
Qed.
Lemma names_like l q (one : loc -> state -> res bool * state) :
  (forall x s1 s2, like l s1 s2 -> fst (one (l ++ q ++ [x]) s1) = fst (one (l ++ q ++ [x]) s2) /\ like l (snd (one (l ++ q ++ [x]) s1)) (snd (one (l ++ q ++ [x]) s2))) ->
  forall names keep s1 s2, like l s1 s2 ->
  fst (prune_names one (l ++ q) names keep s1) = fst (prune_names one (l ++ q) names keep s2)
  /\ like l (snd (prune_names one (l ++ q) names keep s1)) (snd (prune_names one (l ++ q) names keep s2)).
Proof.
  intros H. induction names as [|x r IH]; intros keep s1 s2 L; cbn [prune_names]; [auto|].
  rewrite <- app_assoc. destruct (H x s1 s2 L) as [E L'].
  destruct (one (l ++ q ++ [x]) s1) as [r1 t1], (one (l ++ q ++ [x]) s2) as [r2 t2]. cbn in E, L'. subst r2.
  destruct r1 as [k|e]; [apply IH; exact L'|auto].
Qed.
Lemma calls_like l fuel : forall root q s1 s2, root = true \/ q <> [] -> like l s1 s2 ->
  fst (prune_calls fuel root (l ++ q) s1) = fst (prune_calls fuel root (l ++ q) s2)
  /\ like l (snd (prune_calls fuel root (l ++ q) s1)) (snd (prune_calls fuel root (l ++ q) s2)).
Proof.
  induction fuel as [|n IH]; intros root q s1 s2 Hr L; cbn [prune_calls]; [auto|].
  assert (L1 := others_like _ _ _ L). assert (L2 := others_like _ _ _ L1). assert (L3 := others_like _ _ _ L2).
  unfold exists_at, is_dir, listdir.
  rewrite (lookup_same l q _ _ (proj1 L1)), (lookup_same l q _ _ (proj1 L2)), (lookup_same l q _ _ (proj1 L3)).
  destruct (lookup (fst (others s2)) (l ++ q)); cbn [negb]; [|auto].
  destruct (lookup (fst (others (others s2))) (l ++ q)) as [[c|es0]|]; cbn [negb]; auto.
  destruct (lookup (fst (others (others (others s2)))) (l ++ q)) as [[c|es]|]; auto.
  destruct (names_like l q (prune_calls n false)) with (names := map fst es) (keep := false) (s1 := others (others (others s1))) (s2 := others (others (others s2))) as [E L4]; [|exact L3|].
  { intros x t1 t2 Lt. apply IH; [right; destruct q; discriminate|exact Lt]. }
  destruct (prune_names _ _ _ _ (others (others (others s1)))) as [r1 t1], (prune_names _ _ _ _ (others (others (others s2)))) as [r2 t2].
  cbn in E, L4. subst r2. destruct r1 as [[]|e]; auto. destruct root; auto. cbv zeta. destruct Hr as [Hr|Hr]; [discriminate|].
  assert (L5 := others_like _ _ _ L4). unfold rmdir. rewrite (lookup_same l q _ _ (proj1 L5)).
  destruct (lookup (fst (others t2)) (l ++ q)) as [[c|[|e1 es1]]|] eqn:Eq; auto.
  destruct (l ++ q) as [|y r] eqn:El; [auto|]. rewrite <- El in *. cbn. split; [reflexivity|]. destruct L5 as (H5 & F5 & E5).
  split; [|auto]. rewrite lookup_app in Eq. destruct (lookup (fst (others t2)) l) as [m|] eqn:Em; [|discriminate].
  cbn [fst]. rewrite (delete_deep q Hr l _ _ H5), (delete_deep q Hr l _ _ Em). reflexivity.
Qed.
Lemma settle_elsewhere l acts : Forall (elsewhere l) acts -> forall fs, lookup (fold_left (fun fs a => a fs) acts fs) l = lookup fs l.
Proof. induction 1 as [|a acts H _ IH]; intros fs; cbn; [reflexivity|]. rewrite IH. apply H. Qed.

(** Those who work elsewhere do not matter: nothing fails, and exactly the directories without files are removed. *)
Theorem C112_elsewhere : forall fs l acts, well_formed fs -> Forall (elsewhere l) acts -> exists d, forall fuel, d <= fuel ->
  exists keep s, prune_calls fuel true l (fs, acts) = (Ok keep, s) /\ lookup (settled s) l = lookup (prune_directories fs l) l.
Proof.
  intros fs l acts Hw F. destruct (C112_alone fs l Hw) as [d D]. exists d. intros fuel Lf. destruct (D fuel Lf) as [keep E].
  assert (L : like l (fs, acts) (fs, [])) by (unfold like; auto).
  destruct (calls_like l fuel true [] _ _ (or_introl eq_refl) L) as [E1 L1]. rewrite app_nil_r in E1, L1. rewrite E in E1, L1.
  destruct (prune_calls fuel true l (fs, acts)) as [r s]. cbn in E1, L1. subst r. exists keep, s. split; [reflexivity|].
  destruct L1 as (H & F' & _). unfold settled. rewrite settle_elsewhere by exact F'. exact H.
Qed.
Print Assumptions C112_elsewhere.

(** Failures are those of the operating system. *)
Lemma names_exn one l : (forall l s e, fst (one l s) = Exn e -> In e [FileNotFoundError; NotADirectoryError; OSError; OutOfFuel]) ->
  forall names keep s e, fst (prune_names one l names keep s) = Exn e -> In e [FileNotFoundError; NotADirectoryError; OSError; OutOfFuel].
Proof.
  intros H. induction names as [|x r IH]; intros keep s e; cbn [prune_names]; [discriminate|].
  specialize (H (l ++ [x]) s). destruct (one (l ++ [x]) s) as [[k|e'] s']; cbn in H |- *; [apply IH|]. intros E. apply H; congruence.
Qed.
Theorem C112_failures : forall fuel root l s e, fst (prune_calls fuel root l s) = Exn e ->
  In e [FileNotFoundError; NotADirectoryError; OSError; OutOfFuel].
Proof.
  induction fuel as [|n IH]; intros root l s e; cbn [prune_calls]; [intros E; inversion E; cbn; auto|].
  destruct (negb _); [discriminate|]. destruct (negb _); [discriminate|].
  destruct (listdir _ l) as [names|e'] eqn:El.
  - assert (H4 := names_exn (prune_calls n false) l (fun l s => IH false l s) names false (others (others (others s)))).
    destruct (prune_names _ _ _ _ _) as [[[]|e'] s4]; cbn [fst] in H4 |- *; [discriminate| |apply H4].
    destruct root; [discriminate|]. cbv zeta. destruct (rmdir _ l) as [fs|e'] eqn:E; cbn [fst]; [discriminate|]. intros X. inversion X; subst.
    unfold rmdir in E. destruct (lookup _ l) as [[c|[|? ?]]|]; [|destruct l| |]; inversion E; subst; cbn; auto.
  - cbn [fst]. intros X. inversion X; subst. unfold listdir in El. destruct (lookup _ l) as [[c|?]|]; inversion El; cbn; auto.
Qed.
Print Assumptions C112_failures.

(** Somebody who writes into an empty directory just before it is removed keeps the file, and makes the pruning process fail. *)
Definition idle : action := fun fs => fs.
Theorem C112_raises : forall fs l x y c fuel, lookup fs l = Some (Dir [(x, Dir [])]) -> 2 <= fuel ->
  exists fs', prune_calls fuel true l (fs, repeat idle 6 ++ [writing (l ++ [x; y]) c]) = (Exn OSError, (fs', []))
              /\ file_at fs' (l ++ [x; y]) = Some c.
Proof.
  intros fs l x y c fuel Hl L. destruct fuel as [|[|fuel]]; [lia|lia|].
  assert (Hx : lookup fs (l ++ [x]) = Some (Dir [])).
  { rewrite lookup_app, Hl. cbn. destruct (str_eq_dec x x); congruence. }
  assert (Ed : (l ++ [x]) ++ [y] = l ++ [x; y]) by (rewrite <- app_assoc; reflexivity).
  assert (D1 : is_dir fs (l ++ [x]) = true) by (unfold is_dir; rewrite Hx; reflexivity).
  assert (D2 : is_dir fs ((l ++ [x]) ++ [y]) = false) by (unfold is_dir; rewrite lookup_app, Hx; reflexivity).
  pose proof (writing_puts fs (l ++ [x]) y c D1 D2) as W. rewrite Ed in W.
  exists (writing (l ++ [x; y]) c fs). split; [|exact W].
  set (w := writing (l ++ [x; y]) c) in *. cbn [prune_calls repeat app others fst snd idle]. unfold exists_at, is_dir, listdir.
  rewrite Hl. cbn [negb map fst prune_names]. unfold others; cbn [fst snd]; unfold idle.
  rewrite Hx. cbn [negb map fst prune_names].
  assert (R : rmdir (w fs) (l ++ [x]) = Exn OSError).
  { unfold rmdir. unfold file_at in W. rewrite <- Ed, lookup_app in W.
    destruct (lookup (w fs) (l ++ [x])) as [[c'|[|e es]]|]; cbn in W; try discriminate; reflexivity. }
  cbn [fst snd]. rewrite R. reflexivity.
Qed.
Print Assumptions C112_raises.

(** ** A directory prepared for a file *)
Lemma write_missing x c : forall l n, (forall q, is_prefix q l = true -> file_at n q = None) -> lookup n l = None ->
  write_file n (l ++ [x]) c = Exn FileNotFoundError.
Proof.
  induction l as [|y l IH]; intros n H Hl; [discriminate|].
  destruct n as [c0|es]; [specialize (H [] eq_refl); discriminate|]. cbn in Hl.
  cbn [app write_file]. destruct (l ++ [x]) as [|z r] eqn:E; [destruct l; discriminate|].
  destruct (assoc y es) as [m|] eqn:Em; [|reflexivity]. rewrite IH; [reflexivity| |exact Hl].
  intros q P. specialize (H (y :: q)). cbn in H. destruct (str_eq_dec y y); [|congruence]. specialize (H P).
  unfold file_at in *. cbn in H. rewrite Em in H. exact H.
Qed.
Lemma wf_set es x m : NoDup (map fst es) -> wf_entries es -> well_formed m -> well_formed (Dir (assoc_set x m es)).
Proof.
  intros Hn Hw Hm. apply wf_dir. split.
  - clear Hw Hm. induction es as [|[y v] es IH]; cbn; [constructor; [intros []|constructor]|].
    inversion Hn as [|? ? N1 N2]; subst. destruct (str_eq_dec y x) as [->|Ne]; cbn; [constructor; assumption|].
    constructor; [|apply IH; exact N2]. intros H. apply N1. clear -H Ne. induction es as [|[z v'] es IH]; cbn in *.
    + destruct H as [H|[]]. congruence.
    + destruct (str_eq_dec z x); cbn in *; [exact H|]. destruct H; auto.
  - clear Hn. induction es as [|[y v] es IH]; cbn in *; [auto|]. destruct (str_eq_dec y x); cbn; intuition.
Qed.
Lemma assoc_wf es x m : wf_entries es -> assoc x es = Some m -> well_formed m.
Proof. intros H E. apply wf_entries_Forall in H. rewrite Forall_forall in H. apply assoc_In in E. exact (H _ E). Qed.
Lemma makedirs_wf l : forall n n', well_formed n -> makedirs n l = Ok n' -> well_formed n'.
Proof.
  induction l as [|x l IH]; intros n n' Hw H; cbn in H; [destruct n; congruence|]. destruct n as [|es]; [discriminate|].
  destruct (makedirs _ l) as [m'|e] eqn:E; [|discriminate]. inversion H; subst. pose proof Hw as Hw'. apply wf_dir in Hw' as [Hn He].
  apply wf_set; auto. eapply IH; [|exact E]. destruct (assoc x es) eqn:Ea; [eapply assoc_wf; eassumption|]. apply wf_dir. split; [constructor|exact I].
Qed.
Lemma makedirs_free l : forall n n', makedirs n l = Ok n' -> forall q, is_prefix q l = true -> file_at n q = None.
Proof.
  induction l as [|x l IH]; intros n n' H q P; cbn in H.
  - destruct q; [|discriminate]. destruct n; [discriminate|reflexivity].
  - destruct n as [|es]; [discriminate|]. destruct (makedirs _ l) as [m'|e] eqn:E; [|discriminate]. destruct q as [|y q]; [reflexivity|].
    cbn in P. destruct (str_eq_dec y x) as [->|]; [|discriminate]. unfold file_at. cbn.
    destruct (assoc x es) as [m|] eqn:Ea; [|reflexivity]. apply (IH _ _ E q P).
Qed.

(** One process prepares a directory for a file, another closes a context above it, then the first writes: this works exactly if
    the directory held a file before or is not below the directory of the other; else the file is not written. *)
Theorem C112_prepared : forall fs d fs1 l x c, well_formed fs -> makedirs fs d = Ok fs1 -> is_dir fs (d ++ [x]) = false ->
  let r := write_file (prune_directories fs1 l) (d ++ [x]) c in
  ((exists fs2, r = Ok fs2) <-> holds_file fs d \/ d = l \/ ~ inside d l)
  /\ ((exists fs2, r = Ok fs2) \/ r = Exn FileNotFoundError).
Proof.
  intros fs d fs1 l x c Hw Hm Hx r. pose proof (makedirs_wf _ _ _ Hw Hm) as Hw1.
  assert (Fp : forall q, file_at (prune_directories fs1 l) q = file_at fs q).
  { intros q. rewrite prune_directories_file_at by exact Hw1. apply (makedirs_file_at _ _ _ Hm). }
  assert (Dp := prune_directories_is_dir fs1 l Hw1).
  assert (D1 : is_dir fs1 d = true).
  { rewrite (makedirs_is_dir _ _ _ Hm). replace (is_prefix d d) with true; [apply orb_true_r|]. symmetry. apply is_prefix_iff. exists []. rewrite app_nil_r. reflexivity. }
  assert (H1 : holds_file fs1 d <-> holds_file fs d).
  { unfold holds_file. split; intros (q & c' & E); exists q, c'; [rewrite <- (makedirs_file_at _ _ _ Hm)|rewrite (makedirs_file_at _ _ _ Hm)]; exact E. }
  assert (Nx : is_dir (prune_directories fs1 l) (d ++ [x]) = false).
  { destruct (is_dir (prune_directories fs1 l) (d ++ [x])) eqn:E; [|reflexivity]. apply Dp in E as [E _].
    rewrite (makedirs_is_dir _ _ _ Hm), Hx in E. cbn in E. apply is_prefix_iff in E as [q E].
    apply (f_equal (@List.length _)) in E. rewrite !app_length in E. cbn in E. lia. }
  destruct (is_dir (prune_directories fs1 l) d) eqn:Ed.
  - destruct (write_file_ok _ _ x c Ed Nx) as [fs2 E2]. split; [|left; exists fs2; exact E2].
    split; [|intros _; exists fs2; exact E2]. intros _. apply Dp in Ed as [_ Ed].
    destruct (list_eq_dec (list_eq_dec ascii_dec) d l) as [|N]; [auto|].
    destruct (is_prefix l d) eqn:P.
    + left. apply H1, Ed; [apply is_prefix_iff in P; exact P|exact N].
    + right; right. intros P'. apply is_prefix_iff in P'. congruence.
  - assert (E2 : r = Exn FileNotFoundError).
    { apply write_missing.
      - intros q P. rewrite Fp. apply (makedirs_free _ _ _ Hm q P).
      - unfold is_dir in Ed. destruct (lookup (prune_directories fs1 l) d) as [[c0|es]|] eqn:E; [|discriminate|reflexivity].
        exfalso. assert (X : file_at (prune_directories fs1 l) d = Some c0) by (unfold file_at; rewrite E; reflexivity).
        rewrite Fp, (makedirs_free _ _ _ Hm d) in X; [discriminate|]. apply is_prefix_iff. exists []. rewrite app_nil_r. reflexivity. }
    split; [|right; exact E2]. rewrite E2. split; [intros [? X]; discriminate|]. intros H. exfalso.
    assert (X : is_dir (prune_directories fs1 l) d = true); [|congruence]. apply Dp. split; [exact D1|]. intros Hi Hn.
    apply H1. destruct H as [H|[H|H]]; [exact H|contradiction|contradiction].
Qed.
Print Assumptions C112_prepared.

(** ** Examples *)
Definition ex_tree : node := Dir [($"w", Dir [($"a", Dir []); ($"b", Dir [($"f", File (Text ($"1")))])])].
Example C112_example_alone : well_formed ex_tree
  /\ prune_calls 5 true [$"w"] (ex_tree, []) = (Ok true, (Dir [($"w", Dir [($"b", Dir [($"f", File (Text ($"1")))])])], [])).
Proof. split; [|reflexivity]. cbn. repeat (constructor; cbn; try (intuition discriminate)). Qed.
(** The other writes beside [f] after the directory was listed. *)
Example C112_example_written : let acts := repeat idle 7 ++ [writing [$"w"; $"b"; $"g"] (Text ($"2"))] in
  file_at ex_tree ([$"w"; $"b"] ++ [$"f"]) = Some (Text ($"1")) /\ is_dir ex_tree ([$"w"; $"b"] ++ [$"g"]) = false
  /\ Forall (leaves ([$"w"; $"b"] ++ [$"f"])) (repeat idle 7) /\ Forall (no_dir ([$"w"; $"b"] ++ [$"g"])) (repeat idle 7)
  /\ file_at (settled (snd (prune_calls 5 true [$"w"] (ex_tree, acts)))) [$"w"; $"b"; $"g"] = Some (Text ($"2")).
Proof.
  repeat split; try reflexivity; apply Forall_forall; intros a H; apply repeat_spec in H; subst a; unfold leaves, no_dir, idle; auto.
Qed.
Example C112_example_raises : lookup (Dir [($"w", Dir [($"a", Dir [])])]) [$"w"] = Some (Dir [($"a", Dir [])])
  /\ fst (prune_calls 2 true [$"w"] (Dir [($"w", Dir [($"a", Dir [])])], repeat idle 6 ++ [writing [$"w"; $"a"; $"r"] (Text [])])) = Exn OSError.
Proof. split; reflexivity. Qed.
(** The directory [a] is lost, the directory [b] is not. *)
Example C112_example_prepared :
  makedirs ex_tree [$"w"; $"a"] = Ok ex_tree /\ makedirs ex_tree [$"w"; $"b"] = Ok ex_tree
  /\ write_file (prune_directories ex_tree [$"w"]) [$"w"; $"a"; $"g"] (Text []) = Exn FileNotFoundError
  /\ (exists fs, write_file (prune_directories ex_tree [$"w"]) [$"w"; $"b"; $"g"] (Text []) = Ok fs).
Proof. repeat split; try reflexivity. eexists. reflexivity. Qed.
(** The other creates a directory beside, while ours is pruned. *)
Definition beside : action := fun fs => match fs with Dir es => Dir (es ++ [($"v", Dir [])]) | _ => fs end.
Example C112_example_elsewhere : Forall (elsewhere [$"w"]) [idle; beside; idle; beside]
  /\ let fs := Dir [($"w", Dir [($"a", Dir [($"b", Dir [])])])] in
     let (r, s) := prune_calls 5 true [$"w"] (fs, [idle; beside; idle; beside]) in
     r = Ok false /\ lookup (settled s) [$"w"] = Some (Dir []) /\ lookup (settled s) [$"v"] = Some (Dir []).
Proof.
  assert (B : elsewhere [$"w"] beside).
  { intros [c|es]; [reflexivity|]. cbn [beside lookup]. induction es as [|[k n] es IH]; [reflexivity|]. cbn [app assoc]. destruct (str_eq_dec _ _); [reflexivity|exact IH]. }
  split; [repeat constructor; exact B|]. vm_compute. repeat split.
Qed.
