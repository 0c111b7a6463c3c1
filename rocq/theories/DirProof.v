(** Lemmas about prune_directories, gitignore, get_root_path, mount and script_label. *)
From Coq Require Import List Ascii String Bool Arith NArith Lia Sorted Permutation.
From Verif Require Import Base PosixModel FsModel PathModel PathSpec DirSpec MountSpec
     PosixProof FsProof TargetProof MountProof HistoryProof.
Import ListNotations.

Section NodeInd.
  Variable P : node -> Prop.
  Hypothesis HF : forall c, P (File c).
  Hypothesis HD : forall es, Forall (fun e => P (snd e)) es -> P (Dir es).
  Fixpoint node_ind' (n : node) : P n :=
    match n with
    | File c => HF c
    | Dir es => HD es ((fix go (l : list (str * node)) : Forall (fun e => P (snd e)) l :=
                          match l with
                          | [] => Forall_nil _
                          | e :: r => Forall_cons e (node_ind' (snd e)) (go r)
                          end) es)
    end.
End NodeInd.

(** ** prune *)
Fixpoint prune_entries (l : list (str * node)) : list (str * node) :=
  match l with
  | [] => []
  | (x, m) :: r => let (k, m') := prune m in if k then (x, m') :: prune_entries r else prune_entries r
  end.

Lemma prune_dir es : prune (Dir es) = (match prune_entries es with [] => false | _ => true end, Dir (prune_entries es)).
Proof. reflexivity. Qed.

Fixpoint wf_entries (l : list (str * node)) : Prop :=
  match l with [] => True | (_, m) :: r => well_formed m /\ wf_entries r end.
Lemma wf_dir es : well_formed (Dir es) <-> NoDup (map fst es) /\ wf_entries es.
Proof. reflexivity. Qed.

Lemma wf_entries_Forall es : wf_entries es <-> Forall (fun e => well_formed (snd e)) es.
Proof.
  induction es as [|[x m] r IH]; cbn; [split; constructor|]. rewrite IH. split.
  - intros [H1 H2]. constructor; assumption.
  - intros H. inversion H; auto.
Qed.

Lemma prune_entries_assoc es x : NoDup (map fst es) ->
  assoc x (prune_entries es) =
  match assoc x es with
  | Some m => let (k, m') := prune m in if k then Some m' else None
  | None => None
  end.
Proof.
  induction es as [|[y m] r IH]; intros Hn; [reflexivity|]. inversion Hn as [|? ? H1 H2]; subst. cbn.
  destruct (prune m) as [k m'] eqn:Ep. destruct k; cbn.
  - destruct (str_eq_dec y x) as [->|]; [rewrite Ep; reflexivity|apply IH; assumption].
  - destruct (str_eq_dec y x) as [->|]; [|apply IH; assumption].
    rewrite Ep. rewrite IH by assumption. apply assoc_None in H1. rewrite H1. reflexivity.
Qed.

Definition some_file (n : node) : Prop := exists q c, file_at n q = Some c.

Lemma some_file_dir es : NoDup (map fst es) ->
  (some_file (Dir es) <-> exists x m, In (x, m) es /\ some_file m).
Proof.
  intros Hn. split.
  - intros (q & c & H). destruct q as [|x q]; [discriminate|]. unfold file_at in H. cbn in H.
    destruct (assoc x es) as [m|] eqn:E; [|discriminate].
    exists x, m. split; [apply assoc_In; assumption|]. exists q, c. exact H.
  - intros (x & m & Hi & q & c & H). exists (x :: q), c. unfold file_at. cbn.
    rewrite (assoc_Some_In x m es) by assumption. exact H.
Qed.

Lemma prune_keep n : well_formed n -> (fst (prune n) = true <-> some_file n).
Proof.
  induction n as [c|es IH] using node_ind'; intros Hw.
  - cbn. split; [|reflexivity]. intros _. exists [], c. reflexivity.
  - apply wf_dir in Hw as [Hn Hw]. apply wf_entries_Forall in Hw.
    rewrite prune_dir, some_file_dir by assumption. cbn [fst].
    assert (G : forall l, Forall (fun e => well_formed (snd e) -> (fst (prune (snd e)) = true <-> some_file (snd e))) l ->
      Forall (fun e => well_formed (snd e)) l ->
      (match prune_entries l with [] => false | _ => true end = true <-> exists x m, In (x, m) l /\ some_file m)).
    { clear. induction l as [|[x m] r IH]; intros H Hw; cbn.
      - split; [discriminate|intros (x & m & [] & _)].
      - inversion H as [|? ? H1 H2]; subst. inversion Hw as [|? ? W1 W2]; subst. cbn in H1, W1.
        specialize (H1 W1). specialize (IH H2 W2). destruct (prune m) as [k m'] eqn:Ep. cbn in H1.
        destruct k.
        + split; [|reflexivity]. intros _. exists x, m. split; [left; reflexivity|]. apply H1; reflexivity.
        + rewrite IH. split; intros (y & m2 & Hi & Hs).
          * exists y, m2. auto.
          * destruct Hi as [Hi|Hi]; [|eauto]. inversion Hi; subst. apply H1 in Hs. discriminate. }
    apply G; [exact IH|exact Hw].
Qed.

Lemma prune_is_dir_or_file n : match n with File c => prune n = (true, File c) | Dir _ => exists es', snd (prune n) = Dir es' end.
Proof. destruct n; [reflexivity|]. rewrite prune_dir. eexists; reflexivity. Qed.

Lemma prune_file_at n : well_formed n -> forall q, file_at (snd (prune n)) q = file_at n q.
Proof.
  induction n as [c|es IH] using node_ind'; intros Hw q; [reflexivity|].
  apply wf_dir in Hw as [Hn Hw]. apply wf_entries_Forall in Hw. rewrite prune_dir. cbn [snd].
  destruct q as [|x q]; [reflexivity|]. unfold file_at. cbn [lookup].
  rewrite prune_entries_assoc by assumption. destruct (assoc x es) as [m|] eqn:E; [|reflexivity].
  apply assoc_In in E. rewrite Forall_forall in IH, Hw.
  specialize (IH _ E). specialize (Hw _ E). cbn in IH, Hw. specialize (IH Hw q). unfold file_at in IH.
  pose proof (prune_keep m Hw) as Hk. destruct (prune m) as [k m'] eqn:Ep. cbn in *.
  destruct k; [exact IH|].
  destruct (lookup m q) as [[c|]|] eqn:El; [|reflexivity|reflexivity]. exfalso.
  assert (false = true); [|discriminate]. apply Hk. exists q, c. unfold file_at. rewrite El. reflexivity.
Qed.

Lemma lookup_wf n q m : well_formed n -> lookup n q = Some m -> well_formed m.
Proof.
  revert n. induction q as [|x q IH]; intros n Hw H; cbn in H; [congruence|].
  destruct n as [|es]; [discriminate|]. destruct (assoc x es) as [m1|] eqn:E; [|discriminate].
  apply wf_dir in Hw as [_ Hw]. apply wf_entries_Forall in Hw. rewrite Forall_forall in Hw.
  apply assoc_In in E. apply Hw in E. eapply IH; eassumption.
Qed.

Lemma prune_is_dir n : well_formed n -> forall q, q <> [] ->
  (is_dir (snd (prune n)) q = true <-> is_dir n q = true /\ holds_file n q).
Proof.
  induction n as [c|es IH] using node_ind'; intros Hw q Hq.
  - cbn. destruct q as [|x q]; [congruence|]. cbn. split; [discriminate|]. intros [H _]. discriminate.
  - pose proof Hw as Hw0. apply wf_dir in Hw as [Hn Hw]. apply wf_entries_Forall in Hw. rewrite prune_dir. cbn [snd].
    destruct q as [|x q]; [congruence|]. unfold is_dir. cbn [lookup].
    rewrite prune_entries_assoc by assumption. destruct (assoc x es) as [m|] eqn:E.
    2:{ split; [discriminate|]. intros [H _]; discriminate. }
    assert (Hh : holds_file (Dir es) (x :: q) <-> holds_file m q).
    { unfold holds_file, file_at. cbn [app lookup]. rewrite E. reflexivity. }
    rewrite Hh. apply assoc_In in E. rewrite Forall_forall in IH, Hw.
    specialize (IH _ E). specialize (Hw _ E). cbn in IH, Hw. specialize (IH Hw).
    pose proof (prune_keep m Hw) as Hk. pose proof (prune_is_dir_or_file m) as Hdf.
    destruct (prune m) as [k m'] eqn:Ep. cbn in *.
    destruct k.
    + destruct q as [|y q].
      * cbn. destruct m as [c|es1].
        -- inversion Hdf; subst. split; [discriminate|]. intros [H _]; discriminate.
        -- destruct Hdf as [es' ->]. split; [|reflexivity]. intros _. split; [reflexivity|].
           destruct (proj1 Hk eq_refl) as (q & c & Hf). exists q, c. exact Hf.
      * apply (IH (y :: q)). discriminate.
    + split; [discriminate|]. intros [_ (r & c & Hf)]. apply Hk. exists (q ++ r), c. exact Hf.
Qed.

Lemma prune_directories_file_at fs l : well_formed fs -> forall q,
  file_at (prune_directories fs l) q = file_at fs q.
Proof.
  intros Hw q. unfold prune_directories. destruct (lookup fs l) as [n|] eqn:E; [|reflexivity].
  unfold file_at. destruct (is_prefix q l) eqn:Eq.
  - apply is_prefix_iff in Eq as [r ->]. destruct r as [|x r].
    + rewrite app_nil_r in *.
      assert (H : lookup (replace_at fs q (snd (prune n))) q = Some (snd (prune n))).
      { clear Hw. revert fs E. induction q as [|x q IH]; intros fs E; cbn; [reflexivity|].
        cbn in E. destruct fs as [|es]; [discriminate|]. destruct (assoc x es) as [m|] eqn:Em; [|discriminate].
        cbn. rewrite assoc_set_same. apply IH; assumption. }
      rewrite H, E. pose proof (prune_file_at n (lookup_wf _ _ _ Hw E) []) as Hp. unfold file_at in Hp. cbn in Hp. exact Hp.
    + destruct (lookup_replace_at_prefix (q ++ x :: r) fs (snd (prune n)) n E q x r eq_refl) as (es & es' & H1 & H2).
      rewrite H1, H2. reflexivity.
  - rewrite (lookup_replace_at l fs (snd (prune n)) n E q Eq).
    destruct (is_prefix l q) eqn:El; [|reflexivity].
    apply is_prefix_iff in El as [r ->]. rewrite skipn_app, Nat.sub_diag, skipn_all. cbn [app skipn].
    rewrite lookup_app, E. apply (prune_file_at n (lookup_wf _ _ _ Hw E)).
Qed.

Lemma prune_directories_is_dir fs l : well_formed fs -> forall q,
  is_dir (prune_directories fs l) q = true <->
  is_dir fs q = true /\ (inside q l -> q <> l -> holds_file fs q).
Proof.
  intros Hw q. unfold prune_directories. destruct (lookup fs l) as [n|] eqn:E.
  2:{ split; [|tauto]. intros H. split; [assumption|]. intros [r Hr] Hne. exfalso. subst q.
      unfold is_dir in H. rewrite lookup_app, E in H. discriminate. }
  assert (Hwn := lookup_wf _ _ _ Hw E).
  destruct (is_prefix q l) eqn:Eq.
  - apply is_prefix_iff in Eq as [r ->]. destruct r as [|x r].
    + rewrite app_nil_r in *.
      assert (H : lookup (replace_at fs q (snd (prune n))) q = Some (snd (prune n))).
      { clear Hw Hwn. revert fs E. induction q as [|x q IH]; intros fs E; cbn; [reflexivity|].
        cbn in E. destruct fs as [|es]; [discriminate|]. destruct (assoc x es) as [m|] eqn:Em; [|discriminate].
        cbn. rewrite assoc_set_same. apply IH; assumption. }
      unfold is_dir. rewrite H, E. destruct n as [c|es].
      * cbn. split; [discriminate|]. intros [H1 _]; discriminate.
      * cbn. split; [|reflexivity]. intros _. split; [reflexivity|]. congruence.
    + destruct (lookup_replace_at_prefix (q ++ x :: r) fs (snd (prune n)) n E q x r eq_refl) as (es & es' & H1 & H2).
      unfold is_dir. rewrite H1, H2. split; [|reflexivity]. intros _. split; [reflexivity|].
      intros [r' Hr'] _. exfalso. apply (f_equal (@List.length str)) in Hr'. rewrite !app_length in Hr'. cbn in Hr'. lia.
  - unfold is_dir. rewrite (lookup_replace_at l fs (snd (prune n)) n E q Eq).
    destruct (is_prefix l q) eqn:El.
    + apply is_prefix_iff in El as [r ->]. rewrite skipn_app, Nat.sub_diag, skipn_all. cbn [app skipn].
      assert (Hr : r <> []).
      { intros ->. rewrite app_nil_r in Eq. assert (is_prefix l l = true) by (apply is_prefix_iff; exists []; rewrite app_nil_r; reflexivity).
        congruence. }
      pose proof (prune_is_dir n Hwn r Hr) as Hp. unfold is_dir in Hp. rewrite Hp.
      rewrite lookup_app, E.
      assert (Hh : holds_file fs (l ++ r) <-> holds_file n r).
      { unfold holds_file, file_at.
        assert (Ha : forall r', lookup fs ((l ++ r) ++ r') = lookup n (r ++ r'))
          by (intros r'; rewrite <- app_assoc, lookup_app, E; reflexivity).
        split; intros (r' & c & H); exists r', c; [rewrite <- Ha|rewrite Ha]; exact H. }
      rewrite Hh. split; [tauto|]. intros [H1 H2]. split; [assumption|]. apply H2.
      * exists r; reflexivity.
      * intros Hx. rewrite <- (app_nil_r l) in Hx at 2. apply app_inv_head in Hx. contradiction.
    + split; [|tauto]. intros H. split; [assumption|]. intros [r Hr] _. exfalso. subst q.
      assert (is_prefix l (l ++ r) = true) by (apply is_prefix_iff; eauto). congruence.
Qed.

(** ** .gitignore *)
Lemma insert_set_In s l x : In x (insert_set s l) <-> x = s \/ In x l.
Proof.
  induction l as [|y r IH]; cbn; [intuition|].
  destruct (str_eq_dec y s) as [->|]; [cbn; intuition|].
  destruct (str_leb s y); cbn; [intuition|]. rewrite IH. intuition.
Qed.
Lemma sorted_set_In l x : In x (sorted_set l) <-> In x l.
Proof.
  induction l as [|y r IH]; cbn; [tauto|]. rewrite insert_set_In, IH. intuition.
Qed.

Lemma str_leb_total a b : str_leb a b = true \/ str_leb b a = true.
Proof.
  revert b. induction a as [|x a IH]; intros [|y b]; cbn [str_leb]; auto.
  destruct (Nat.ltb_spec (code x) (code y)), (Nat.ltb_spec (code y) (code x)); auto.
  destruct (Nat.eqb_spec (code x) (code y)), (Nat.eqb_spec (code y) (code x)); try lia. apply IH.
Qed.
Lemma code_inj a b : code a = code b -> a = b.
Proof. unfold code. intros H. rewrite <- (ascii_nat_embedding a), <- (ascii_nat_embedding b), H. reflexivity. Qed.
Lemma str_leb_antisym a b : str_leb a b = true -> str_leb b a = true -> a = b.
Proof.
  revert b. induction a as [|x a IH]; intros [|y b]; cbn [str_leb]; intros H1 H2; try (reflexivity || discriminate).
  destruct (Nat.ltb_spec (code x) (code y)), (Nat.ltb_spec (code y) (code x)); try lia.
  - destruct (Nat.eqb_spec (code y) (code x)); [lia|discriminate].
  - destruct (Nat.eqb_spec (code x) (code y)); [lia|discriminate].
  - destruct (Nat.eqb_spec (code x) (code y)) as [E|]; [|discriminate].
    rewrite E, Nat.eqb_refl in H2. apply code_inj in E. subst. f_equal. auto.
Qed.
Lemma str_leb_trans a b c : str_leb a b = true -> str_leb b c = true -> str_leb a c = true.
Proof.
  revert b c. induction a as [|x a IH]; intros [|y b] [|z c]; cbn [str_leb]; intros H1 H2; try (reflexivity || discriminate).
  destruct (Nat.ltb_spec (code x) (code y)) as [L1|L1], (Nat.ltb_spec (code y) (code z)) as [L2|L2],
    (Nat.ltb_spec (code x) (code z)) as [L3|L3]; try reflexivity; try lia;
  repeat match goal with H : context [Nat.eqb ?p ?q] |- _ => destruct (Nat.eqb_spec p q); try discriminate
    | |- context [Nat.eqb ?p ?q] => destruct (Nat.eqb_spec p q) end; try lia.
  eapply IH; eassumption.
Qed.

Definition str_lt (a b : str) : Prop := str_leb a b = true /\ a <> b.
Lemma insert_set_sorted s l : StronglySorted str_lt l -> StronglySorted str_lt (insert_set s l).
Proof.
  induction 1 as [|x l Hs IH Hf]; cbn; [repeat constructor|].
  destruct (str_eq_dec x s) as [->|Hne]; [constructor; assumption|].
  destruct (str_leb s x) eqn:E.
  - constructor; [constructor; assumption|]. constructor.
    + split; congruence.
    + eapply Forall_impl; [|exact Hf]. intros y [H1 H2]. split.
      * eapply str_leb_trans; eassumption.
      * intros ->. apply H2. apply str_leb_antisym; assumption.
  - constructor; [assumption|]. apply Forall_forall. intros y Hy. apply insert_set_In in Hy as [->|Hy].
    + destruct (str_leb_total x s); [split; assumption|congruence].
    + rewrite Forall_forall in Hf. auto.
Qed.
Lemma sorted_set_sorted l : StronglySorted str_lt (sorted_set l).
Proof. induction l; cbn; [constructor|]. apply insert_set_sorted; assumption. Qed.
Lemma sorted_NoDup l : StronglySorted str_lt l -> NoDup l.
Proof.
  induction 1 as [|x l Hs IH Hf]; constructor; [|assumption].
  intros Hi. rewrite Forall_forall in Hf. apply Hf in Hi. destruct Hi; congruence.
Qed.
Lemma sorted_ext a b : StronglySorted str_lt a -> StronglySorted str_lt b ->
  (forall x, In x a <-> In x b) -> a = b.
Proof.
  intros Ha. revert b. induction Ha as [|x a Hs IH Hf]; intros b Hb He.
  - destruct b as [|y b]; [reflexivity|]. exfalso. apply (He y). left; reflexivity.
  - destruct b as [|y b].
    + exfalso. apply (He x). left; reflexivity.
    + inversion Hb as [|? ? Hs' Hf']; subst.
      assert (x = y).
      { destruct (proj1 (He x) (or_introl eq_refl)) as [->|H1]; [reflexivity|].
        destruct (proj2 (He y) (or_introl eq_refl)) as [->|H2]; [reflexivity|].
        rewrite Forall_forall in Hf, Hf'. apply Hf' in H1. apply Hf in H2.
        destruct H1, H2. apply str_leb_antisym; assumption. }
      subst y. f_equal. apply IH; [assumption|]. intros z. split; intros Hz.
      * destruct (proj1 (He z) (or_intror Hz)) as [->|]; [|assumption].
        rewrite Forall_forall in Hf. apply Hf in Hz. destruct Hz; congruence.
      * destruct (proj2 (He z) (or_intror Hz)) as [->|]; [|assumption].
        rewrite Forall_forall in Hf'. apply Hf' in Hz. destruct Hz; congruence.
Qed.

(** lines *)

Lemma universal_newlines_id s : (forall c, In c s -> code c <> 13) -> universal_newlines s = s.
Proof.
  induction s as [|c r IH]; intros H; [reflexivity|]. cbn.
  destruct (Nat.eqb_spec (code c) 13) as [E|E]; [exfalso; apply (H c); [left; reflexivity|assumption]|].
  rewrite IH; [reflexivity|]. intros d Hd. apply H. right; assumption.
Qed.

Lemma splitlines_acc_one cur s r : one_line s -> splitlines_acc cur (s ++ ascii_of_nat 10 :: r) =
  (rev cur ++ s) :: splitlines_acc [] r.
Proof.
  revert cur. induction s as [|c s IH]; intros cur H; cbn.
  - rewrite app_nil_r. reflexivity.
  - rewrite (H c) by (left; reflexivity). rewrite IH by (intros d Hd; apply H; right; assumption).
    cbn. rewrite <- app_assoc. reflexivity.
Qed.
Lemma splitlines_acc_last cur s : one_line s -> cur ++ s <> [] -> splitlines_acc cur s = [rev cur ++ s].
Proof.
  revert cur. induction s as [|c s IH]; intros cur H Hn; cbn.
  - rewrite app_nil_r in *. destruct cur; [congruence|reflexivity].
  - rewrite (H c) by (left; reflexivity). rewrite IH.
    + cbn. rewrite <- app_assoc. reflexivity.
    + intros d Hd; apply H; right; assumption.
    + discriminate.
Qed.

Lemma join_lines_In l c : In c (join_lines l) -> c = ascii_of_nat 10 \/ exists x, In x l /\ In c x.
Proof.
  induction l as [|x l IH]; [contradiction|]. destruct l as [|y l].
  - intros H. right. exists x. split; [left; reflexivity|exact H].
  - change (join_lines (x :: y :: l)) with (x ++ ascii_of_nat 10 :: join_lines (y :: l)).
    intros H. apply in_app_or in H as [H|[H|H]].
    + right. exists x. split; [left; reflexivity|assumption].
    + left; congruence.
    + destruct (IH H) as [->|(z & Hz & Hc)]; [left; reflexivity|].
      right. exists z. split; [right; assumption|assumption].
Qed.

Lemma splitlines_join l : Forall one_line l -> l <> [] -> last l [] <> [] -> splitlines (join_lines l) = l.
Proof.
  intros Hl Hn Hlast. unfold splitlines. rewrite universal_newlines_id.
  - induction l as [|x l IH]; [congruence|]. inversion Hl as [|? ? Hx Hl']; subst.
    destruct l as [|y l].
    + cbn. cbn in Hlast. rewrite splitlines_acc_last by assumption. reflexivity.
    + change (join_lines (x :: y :: l)) with (x ++ ascii_of_nat 10 :: join_lines (y :: l)).
      rewrite splitlines_acc_one by assumption. cbn [rev app]. f_equal.
      apply IH; [assumption|discriminate|exact Hlast].
  - intros c Hc Hcode. apply join_lines_In in Hc as [->|(x & Hx & Hc)]; [discriminate|].
    rewrite Forall_forall in Hl. specialize (Hl x Hx c Hc). unfold is_line_break in Hl. rewrite Hcode in Hl. discriminate.
Qed.

Lemma splitlines_acc_lines s : forall cur, one_line (rev cur) -> Forall one_line (splitlines_acc cur s).
Proof.
  induction s as [|c r IH]; intros cur H; cbn.
  - destruct cur; [constructor|]. constructor; [assumption|constructor].
  - destruct (is_line_break c) eqn:E.
    + constructor; [assumption|]. apply IH. intros d [].
    + apply IH. cbn. intros d Hd. apply in_app_or in Hd as [Hd|[<-|[]]]; auto.
Qed.
Lemma splitlines_lines s : Forall one_line (splitlines s).
Proof. apply splitlines_acc_lines. intros c []. Qed.

Lemma sorted_set_last l : In ($".gitignore") l -> last (sorted_set l) [] <> [].
Proof.
  intros H E. pose proof (sorted_set_sorted l) as Hs. apply sorted_set_In in H.
  assert (G : forall l, StronglySorted str_lt l -> l <> [] -> last l [] = [] -> l = [[]]).
  { clear. intros l Hs Hn He. destruct (exists_last Hn) as (a & x & ->). rewrite last_last in He. subst x.
    destruct a as [|y a]; [reflexivity|]. exfalso. inversion Hs as [|? ? _ Hf]; subst.
    rewrite Forall_forall in Hf. specialize (Hf []). destruct Hf as [Hf Hne]; [apply in_or_app; right; left; reflexivity|].
    destruct y; [congruence|discriminate]. }
  rewrite (G (sorted_set l) Hs) in H; [destruct H as [H|[]]; discriminate|intros E2; rewrite E2 in H; contradiction|exact E].
Qed.

(** the entries the file should list *)
Definition old_lines (cwd : str) (fs : node) (dir : str) : list str :=
  match file_at fs (os_loc cwd (join2 dir ($".gitignore"))) with Some (Text s) => splitlines s | _ => [] end.

Definition gi_entries (cwd : str) (fs : node) (dir : str) (ignored : list str) (check : list target) : list str :=
  sorted_set (($".gitignore") :: ignored ++
    filter (fun p => negb (existsb (str_teq p) check) || exists_at fs (os_loc cwd (join2 dir p))) (old_lines cwd fs dir)).

Lemma gitignore_eq cwd fs dir ignored check :
  match lookup fs (os_loc cwd (join2 dir ($".gitignore"))) with
  | Some (Dir _) => gitignore cwd fs dir ignored check = Exn IsADirectoryError
  | Some (File (Json _)) => gitignore cwd fs dir ignored check = Exn ValueError
  | _ => gitignore cwd fs dir ignored check =
         match gi_entries cwd fs dir ignored check with
         | [_] => os_remove fs (os_loc cwd (join2 dir ($".gitignore")))
         | es => write_file fs (os_loc cwd (join2 dir ($".gitignore"))) (Text (join_lines es))
         end
  end.
Proof.
  unfold gitignore, gitignore_gen, gi_entries, old_lines, file_at.
  destruct (lookup fs (os_loc cwd (join2 dir ($".gitignore")))) as [[[s|j]|es]|]; try reflexivity;
    cbn [bind filter]; match goal with |- context [sorted_set ?x] => destruct (sorted_set x) as [|? [|? ?]] end; reflexivity.
Qed.

(** ** Root search *)
Lemma find_root_spec fs rl :
  match find_root fs rl with
  | Some l => exists a b, rev rl = a ++ b /\ l = a ++ [root_folder] /\ is_dir fs l = true /\
                (a = [] -> rl = []) /\
                (forall a' b', rev rl = a' ++ b' -> List.length a < List.length a' -> is_dir fs (a' ++ [root_folder]) = false)
  | None => forall a b, rev rl = a ++ b -> (a = [] -> rl = []) -> is_dir fs (a ++ [root_folder]) = false
  end.
Proof.
  induction rl as [|x rl IH]; cbn [find_root].
  - cbn [rev app]. destruct (is_dir fs [root_folder]) eqn:E.
    + exists [], []. repeat split; auto. intros a' b' H Hl. symmetry in H. apply app_eq_nil in H as [-> ->]. cbn in Hl. lia.
    + intros a b H _. symmetry in H. apply app_eq_nil in H as [-> ->]. exact E.
  - destruct (is_dir fs (rev (x :: rl) ++ [root_folder])) eqn:E.
    + exists (rev (x :: rl)), []. rewrite app_nil_r. repeat split; auto.
      * intros H. cbn in H. apply app_eq_nil in H as [_ H]. discriminate.
      * intros a' b' H Hl. apply (f_equal (@List.length str)) in H. rewrite app_length in H. lia.
    + destruct rl as [|y rl].
      * intros a b H Hne. cbn in H. destruct a as [|a0 a]; [specialize (Hne eq_refl); discriminate|].
        inversion H as [[H1 H2]]. symmetry in H2. apply app_eq_nil in H2 as [-> ->]. subst. exact E.
      * destruct (find_root fs (y :: rl)) as [l|].
        -- destruct IH as (a & b & H1 & H2 & H3 & H4 & H5). exists a, (b ++ [x]).
           change (rev (x :: y :: rl)) with (rev (y :: rl) ++ [x]). rewrite H1, <- app_assoc.
           repeat split; auto.
           ++ intros ->. specialize (H4 eq_refl). discriminate.
           ++ intros a' b' H Hl.
              destruct b' as [|z b'] using rev_ind.
              ** rewrite app_nil_r in H. rewrite <- H. rewrite app_assoc, <- H1. exact E.
              ** rewrite !app_assoc in H. apply app_inj_tail in H as [H _].
                 apply (H5 a' b'); [congruence|assumption].
        -- intros a b H Hne. change (rev (x :: y :: rl)) with (rev (y :: rl) ++ [x]) in *.
           destruct b as [|z b] using rev_ind.
           ++ rewrite app_nil_r in H. rewrite <- H. exact E.
           ++ rewrite app_assoc in H. apply app_inj_tail in H as [H _].
              apply (IH a b H). intros ->. specialize (Hne eq_refl). discriminate.
Qed.

(** ** Script labels *)
Lemma colons_app a b : colons (a ++ b) = colons a ++ colons b.
Proof. apply map_app. Qed.
Definition nocolon (s : str) : Prop := ~ In ":"%char s.
Lemma colons_inj a b : nocolon a -> nocolon b -> colons a = colons b -> a = b.
Proof.
  revert b. induction a as [|x a IH]; intros [|y b] Ha Hb E; try (reflexivity || discriminate).
  cbn in E. inversion E as [[E1 E2]]. f_equal.
  - destruct (ascii_dec x sep) as [->|], (ascii_dec y sep) as [->|]; try congruence.
    + exfalso. apply Hb. left; congruence.
    + exfalso. apply Ha. left; congruence.
  - apply IH; [intros H; apply Ha; right; exact H|intros H; apply Hb; right; exact H|exact E2].
Qed.

Lemma split_last_colon a b a' b' : nocolon b -> nocolon b' ->
  a ++ ":"%char :: b = a' ++ ":"%char :: b' -> a = a' /\ b = b'.
Proof.
  intros Hb Hb' E. revert a' E. induction a as [|x a IH]; intros a' E.
  - destruct a' as [|y a']; [inversion E; auto|]. inversion E; subst. exfalso. apply Hb.
    apply in_or_app; right; left; reflexivity.
  - destruct a' as [|y a'].
    + inversion E; subst. exfalso. apply Hb'. apply in_or_app; right; left; reflexivity.
    + inversion E as [[E1 E2]]. destruct (IH a' E2) as [-> ->]. auto.
Qed.

Lemma strip_prefix_iff p l r : strip_prefix p l = Some r <-> l = p ++ r.
Proof.
  revert l. induction p as [|x p IH]; intros l; cbn.
  - split; [intros H; inversion H; reflexivity|intros ->; reflexivity].
  - destruct l as [|y l]; [split; discriminate|]. destruct (str_eq_dec x y) as [->|Hn].
    + rewrite IH. split; [intros ->; reflexivity|intros H; inversion H; reflexivity].
    + split; [discriminate|]. intros H; inversion H; congruence.
Qed.
