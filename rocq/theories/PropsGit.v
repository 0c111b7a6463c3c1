(** C110: what git makes of the [.gitignore] that dman writes. *)
From Coq Require Import Ascii String List Bool Arith Lia.
From Verif Require Import Base PosixModel PosixProof FsModel PathModel PathSpec MountSpec DirSpec FsProof DirProof PathFacts GitModel.
Import ListNotations.

(** ** Specification *)
(** A name without any character that git gives a meaning to. *)
Definition ordinary (n : str) : Prop :=
  n <> [] /\ (forall c, In c n -> ~ In c ($"*?[\")) /\ (forall r, n <> ("#"%char : ascii) :: r /\ n <> ("!"%char : ascii) :: r /\ n <> sep :: r) /\ (forall r, n <> r ++ [" "%char]).

(** A name with a slash means the file or directory there, and one without means every file and directory of that name. *)
Definition means (n : str) (path : list str) : Prop :=
  (noslash n /\ In n path) \/ (~ noslash n /\ exists rest, path = split_sep n ++ rest).

(** ** Lemmas *)
Lemma ceq_true a b : ceq a b = true <-> a = b.
Proof. unfold ceq. destruct (ascii_dec a b); split; congruence. Qed.
Lemma ceq_false a b : ceq a b = false <-> a <> b.
Proof. unfold ceq. destruct (ascii_dec a b); split; congruence. Qed.
Lemma ceq_refl a : ceq a a = true.
Proof. apply ceq_true. reflexivity. Qed.

Lemma no_break_feed c : is_line_break c = false -> ceq c (ascii_of_nat 10) = false /\ ceq c (ascii_of_nat 13) = false.
Proof. intros H. split; apply ceq_false; intros ->; discriminate. Qed.

Lemma no_return_id cur : (forall c, In c cur -> is_line_break c = false) -> no_return cur = cur.
Proof.
  intros H. destruct cur as [|x y]; [reflexivity|]. unfold no_return. destruct (no_break_feed x (H x (or_introl eq_refl))) as [_ E]. rewrite E. reflexivity.
Qed.

Lemma git_lines_one s : forall cur, one_line s -> (forall c, In c cur -> is_line_break c = false) -> git_lines_acc cur s = [rev cur ++ s].
Proof.
  induction s as [|c s IH]; intros cur Hs Hc; cbn [git_lines_acc].
  - rewrite no_return_id by assumption. rewrite app_nil_r. reflexivity.
  - destruct (no_break_feed c (Hs c (or_introl eq_refl))) as [E _]. rewrite E. rewrite IH; [cbn; rewrite <- app_assoc; reflexivity| |].
    + intros d Hd. apply Hs. right. exact Hd.
    + intros d [<-|Hd]; [apply Hs; left; reflexivity|auto].
Qed.

Lemma git_lines_more s t : forall cur, one_line s -> (forall c, In c cur -> is_line_break c = false) ->
  git_lines_acc cur (s ++ ascii_of_nat 10 :: t) = (rev cur ++ s) :: git_lines_acc [] t.
Proof.
  induction s as [|c s IH]; intros cur Hs Hc; cbn [app git_lines_acc].
  - rewrite ceq_refl, no_return_id by assumption. rewrite app_nil_r. reflexivity.
  - destruct (no_break_feed c (Hs c (or_introl eq_refl))) as [E _]. rewrite E. rewrite IH; [cbn; rewrite <- app_assoc; reflexivity| |].
    + intros d Hd. apply Hs. right. exact Hd.
    + intros d [<-|Hd]; [apply Hs; left; reflexivity|auto].
Qed.

Lemma git_lines_join l : Forall one_line l -> l <> [] -> git_lines (join_lines l) = l.
Proof.
  intros H Hne. induction H as [|x r Hx Hr IH]; [congruence|]. destruct r as [|y r].
  - unfold git_lines. cbn [join_lines]. rewrite git_lines_one; [reflexivity|assumption|intros c []].
  - change (join_lines (x :: y :: r)) with (x ++ ascii_of_nat 10 :: join_lines (y :: r)). unfold git_lines in *.
    rewrite git_lines_more; [|assumption|intros c []]. rewrite IH by discriminate. reflexivity.
Qed.

Lemma trim_prefix s : forall sp, exists u, sp ++ s = trim_acc sp s ++ u.
Proof.
  assert (G : forall n s, List.length s <= n -> forall sp, exists u, sp ++ s = trim_acc sp s ++ u).
  { clear s. induction n as [|n IH]; intros s Hn sp.
    - destruct s; [|cbn in Hn; lia]. exists sp. cbn. rewrite app_nil_r. reflexivity.
    - destruct s as [|c s]; [exists sp; cbn; rewrite app_nil_r; reflexivity|]. cbn in Hn. cbn [trim_acc]. destruct (ceq c " ").
      + destruct (IH s ltac:(lia) (sp ++ [c])) as [u Hu]. exists u. rewrite <- Hu, <- app_assoc. reflexivity.
      + destruct (ceq c "\").
        * destruct s as [|d s]; [exists []; rewrite app_nil_r; reflexivity|]. cbn in Hn. destruct (IH s ltac:(lia) []) as [u Hu]. cbn [app] in Hu. exists u.
          rewrite Hu at 1. rewrite <- app_assoc. reflexivity.
        * destruct (IH s ltac:(lia) []) as [u Hu]. cbn [app] in Hu. exists u. rewrite Hu at 1. rewrite <- app_assoc. reflexivity. }
  intros sp. exact (G _ s (le_n _) sp).
Qed.

Lemma trim_keeps s : ~ In ("\"%char : ascii) s -> (forall r, s <> r ++ [" "%char]) -> forall sp, s <> [] -> trim_acc sp s = sp ++ s.
Proof.
  induction s as [|c s IH]; intros Hb Hl sp Hne; [congruence|]. cbn [trim_acc].
  assert (Hb' : ~ In ("\"%char : ascii) s) by (intros H; apply Hb; right; exact H).
  assert (Hl' : forall r, s <> r ++ [" "%char]) by (intros r E; apply (Hl (c :: r)); rewrite E; reflexivity).
  destruct (ceq c " ") eqn:E1.
  - apply ceq_true in E1. subst c. destruct s as [|d s]; [exfalso; exact (Hl [] eq_refl)|]. rewrite IH by (assumption || discriminate).
    rewrite <- app_assoc. reflexivity.
  - destruct (ceq c "\") eqn:E2; [apply ceq_true in E2; subst c; exfalso; apply Hb; left; reflexivity|].
    destruct s as [|d s]; [reflexivity|]. rewrite IH by (assumption || discriminate). reflexivity.
Qed.

Lemma trim_ends r : forall sp, ~ In ("\"%char : ascii) r -> List.length (trim_acc sp (r ++ [" "%char])) <= List.length sp + List.length r.
Proof.
  induction r as [|c r IH]; intros sp Hb; cbn [app trim_acc List.length].
  - rewrite ceq_refl. cbn. lia.
  - assert (Hb' : ~ In ("\"%char : ascii) r) by (intros H; apply Hb; right; exact H).
    destruct (ceq c " "); [specialize (IH (sp ++ [c]) Hb'); rewrite app_length in IH; cbn in IH; lia|].
    destruct (ceq c "\") eqn:E2; [apply ceq_true in E2; subst c; exfalso; apply Hb; left; reflexivity|].
    rewrite app_length. specialize (IH [] Hb'). cbn [List.length] in *. lia.
Qed.

Lemma tokens_len p : forall m, ~ In Bad (tokens m p) -> List.length (tokens m p) <= List.length p.
Proof.
  induction p as [|c r IH]; intros m H.
  - destruct m; cbn in *; try lia; exfalso; apply H; left; reflexivity.
  - destruct m; cbn [tokens] in *;
      repeat match goal with |- context [if ?b then _ else _] => destruct b end;
      cbn [List.length In] in *;
      match goal with |- context [tokens ?m r] => specialize (IH m ltac:(tauto)) end; lia.
Qed.

Lemma tokens_full p : ~ In Bad (tokens Plain p) -> List.length (tokens Plain p) = List.length p -> ~ In ("["%char : ascii) p /\ ~ In ("\"%char : ascii) p.
Proof.
  induction p as [|c r IH]; intros H L; [split; intros []|]. cbn [tokens] in *.
  destruct (ceq c "\") eqn:E1; [pose proof (tokens_len r Escape H) as X; cbn in L; lia|].
  destruct (ceq c "*") eqn:E2; [|destruct (ceq c "?") eqn:E3; [|destruct (ceq c "[") eqn:E4; [pose proof (tokens_len r ClassOpen H) as X; cbn in L; lia|]]];
    cbn [List.length In] in *; destruct (IH ltac:(tauto) ltac:(lia)) as [A B];
    (split; intros [->|X]; [|contradiction| |contradiction]); discriminate.
Qed.

Lemma tokens_star p : forall m, In Star (tokens m p) -> In ("*"%char : ascii) p.
Proof.
  induction p as [|c r IH]; intros m H.
  - destruct m; cbn in H; intuition discriminate.
  - destruct m; cbn [tokens] in H;
      repeat match type of H with context [if ?b then _ else _] => destruct b eqn:? end;
      cbn [In] in *; try (right; eapply IH; eassumption);
      try (destruct H as [H|H]; [try discriminate|right; eapply IH; eassumption]).
    left. apply ceq_true. assumption.
Qed.

Lemma wild_len p : forall t, ~ In Star p -> wild p t = true -> List.length t = List.length p /\ ~ In Bad p.
Proof.
  induction p as [|x p IH]; intros t Hs H.
  - destruct t; [cbn; auto|discriminate].
  - cbn [In] in Hs. destruct x; cbn [wild] in H; try (exfalso; tauto); try discriminate;
      (destruct t as [|c0 t]; [discriminate|]); repeat (apply andb_true_iff in H as [? H]);
      destruct (IH t ltac:(tauto) H) as [A B]; cbn [List.length In]; (split; [lia|intros [X|X]; [discriminate|contradiction]]).
Qed.

Lemma tokens_lit p : (forall c, In c p -> ~ In c ($"*?[\")) -> tokens Plain p = map Lit p.
Proof.
  induction p as [|c p IH]; intros H; [reflexivity|]. cbn [tokens map].
  pose proof (H c (or_introl eq_refl)) as Hc. cbn in Hc.
  assert (N : forall d, (d = "*"%char \/ d = "?"%char \/ d = "["%char \/ d = "\"%char) -> ceq c d = false)
    by (intros d Hd; apply ceq_false; intros ->; apply Hc; intuition).
  rewrite !N by tauto. rewrite IH; [reflexivity|]. intros d Hd. apply H. right. exact Hd.
Qed.

Lemma wild_lit p : forall t, wild (map Lit p) t = true <-> t = p.
Proof.
  induction p as [|a p IH]; intros t; cbn [map wild].
  - destruct t; split; congruence.
  - destruct t as [|c t]; [split; discriminate|]. rewrite andb_true_iff, ceq_true, IH. split; [intros [-> ->]; reflexivity|]. intros E; inversion E; auto.
Qed.

Lemma wild_star r t : wild (Star :: r) t = wild r t || match t with c :: t' => negb (ceq c sep) && wild (Star :: r) t' | [] => false end.
Proof. destruct t; reflexivity. Qed.

Lemma wild_self p : (forall c, In c p -> c <> "["%char /\ c <> "\"%char) -> wild (tokens Plain p) p = true.
Proof.
  induction p as [|c p IH]; intros H; [reflexivity|]. cbn [tokens].
  destruct (H c (or_introl eq_refl)) as [H1 H2]. apply ceq_false in H1, H2. rewrite H1, H2.
  assert (Hp : wild (tokens Plain p) p = true) by (apply IH; intros d Hd; apply H; right; exact Hd).
  destruct (ceq c "*") eqn:E1.
  - apply ceq_true in E1. subst c. rewrite wild_star. apply orb_true_iff. right. rewrite wild_star, Hp. reflexivity.
  - destruct (ceq c "?") eqn:E2.
    + apply ceq_true in E2. subst c. cbn [wild]. rewrite Hp. reflexivity.
    + cbn [wild]. rewrite ceq_refl, Hp. reflexivity.
Qed.

Lemma has_slash n : existsb (fun d => ceq d sep) n = false <-> noslash n.
Proof.
  unfold noslash. split.
  - intros H Hin. rewrite <- not_true_iff_false in H. apply H. apply existsb_exists. exists sep. split; [assumption|apply ceq_refl].
  - intros H. apply not_true_iff_false. intros E. apply existsb_exists in E as (c & Hc & E). apply ceq_true in E. subst c. contradiction.
Qed.

Lemma read_ordinary n : ordinary n -> read_line n = Some (mk_rule false (existsb (fun d => ceq d sep) n) (map Lit n)).
Proof.
  intros (H0 & H1 & H2 & H3). destruct n as [|c r]; [congruence|]. unfold read_line.
  destruct (H2 r) as (A & B & C).
  assert (E1 : ceq c "#" = false) by (apply ceq_false; intros ->; congruence). rewrite E1.
  unfold trim. rewrite trim_keeps; [|intros X; apply (H1 _ X); cbn; tauto|exact H3|discriminate]. cbn [app].
  assert (E2 : ceq c "!" = false) by (apply ceq_false; intros ->; congruence). rewrite E2.
  assert (E3 : ceq c sep = false) by (apply ceq_false; intros ->; congruence). rewrite E3.
  rewrite tokens_lit by exact H1. reflexivity.
Qed.

Lemma applies_ordinary n q r : ordinary n -> read_line n = Some r -> Forall noslash q -> q <> [] ->
  applies r q = true <-> (noslash n /\ last q [] = n) \/ (~ noslash n /\ q = split_sep n).
Proof.
  intros Ho Hr Hq Hne. rewrite read_ordinary in Hr by assumption. inversion Hr; subst r. clear Hr. unfold applies. cbn [r_anchored r_tokens].
  destruct (existsb (fun d => ceq d sep) n) eqn:E.
  - assert (N : ~ noslash n) by (intros X; apply has_slash in X; congruence).
    rewrite wild_lit. split.
    + intros H. right. split; [assumption|]. rewrite <- H, split_join; auto.
    + intros [[X _]|[_ ->]]; [contradiction|]. apply join_split.
  - apply has_slash in E. rewrite wild_lit. split; [intros H; left; auto|intros [[_ H]|[X _]]; [assumption|contradiction]].
Qed.

Definition plain_line (line : str) : Prop := forall r, read_line line = Some r -> r_negated r = false.

Lemma verdict_any lines q : Forall plain_line lines ->
  verdict lines q = true <-> exists n r, In n lines /\ read_line n = Some r /\ applies r q = true.
Proof.
  intros H. unfold verdict.
  assert (G : forall b, fold_left (fun b line => match read_line line with Some r => if applies r q then negb (r_negated r) else b | None => b end) lines b = true <->
    b = true \/ exists n r, In n lines /\ read_line n = Some r /\ applies r q = true).
  { induction H as [|x l Hx Hl IH]; intros b; cbn [fold_left].
    - split; [auto|]. intros [E|(n & r & [] & _)]. exact E.
    - rewrite IH. clear IH. split.
      + intros [E|(n & r & A & B & C)]; [|right; exists n, r; cbn; auto].
        destruct (read_line x) as [r|] eqn:Er; [|auto]. destruct (applies r q) eqn:Ea; [|auto]. right. exists x, r. cbn; auto.
      + intros [->|(n & r & [->|A] & B & C)].
        * left. destruct (read_line x) as [r|] eqn:Er; [|auto]. destruct (applies r q); [|auto]. rewrite (Hx r Er). reflexivity.
        * left. rewrite B, C, (Hx r B). reflexivity.
        * right. exists n, r. auto. }
  rewrite G. split; [intros [X|X]; [discriminate|exact X]|auto].
Qed.

Lemma ignored_prefix lines rest : forall done, ignored_from lines done rest = true <-> exists a x b, rest = a ++ x :: b /\ verdict lines (done ++ a ++ [x]) = true.
Proof.
  induction rest as [|y rest IH]; intros done; cbn [ignored_from].
  - split; [discriminate|]. intros (a & x & b & E & _). destruct a; discriminate.
  - rewrite orb_true_iff, IH. split.
    + intros [H|(a & x & b & -> & H)].
      * exists [], y, rest. auto.
      * exists (y :: a), x, b. split; [reflexivity|]. rewrite <- app_assoc in H. exact H.
    + intros (a & x & b & E & H). destruct a as [|z a]; inversion E; subst.
      * left. exact H.
      * right. exists a, x, b. split; [reflexivity|]. rewrite <- app_assoc. exact H.
Qed.

Lemma ordinary_plain n : ordinary n -> plain_line n.
Proof. intros H r Hr. rewrite read_ordinary in Hr by assumption. inversion Hr. reflexivity. Qed.

(** ** Theorems *)
(** If no line has a character with a meaning, git ignores exactly what the lines mean.  In particular a line without a slash also makes git ignore the files of that name in
    subdirectories, which dman need not have written. *)
Theorem C110_meaning : forall lines path, Forall one_line lines -> Forall ordinary lines -> Forall noslash path ->
  git_ignores (join_lines lines) path = true <-> exists n, In n lines /\ means n path.
Proof.
  intros lines path H1 H2 H3. destruct lines as [|l0 lines'] eqn:El.
  - split; [|intros (n & [] & _)]. unfold git_ignores. cbn. intros H. apply ignored_prefix in H as (a & x & b & _ & H). discriminate.
  - rewrite <- El in *. clear El. assert (Hne : lines <> [] \/ lines = []) by (destruct lines; [right|left]; congruence).
    destruct Hne as [Hne|Hne].
    2:{ subst lines. split; [|intros (n & [] & _)]. unfold git_ignores. cbn. intros H. apply ignored_prefix in H as (a & x & b & _ & H). discriminate. }
    unfold git_ignores. rewrite git_lines_join by assumption. rewrite ignored_prefix.
    assert (Hp : Forall plain_line lines) by (eapply Forall_impl; [|exact H2]; apply ordinary_plain).
    split.
    + intros (a & x & b & -> & Hv). cbn [app] in Hv. apply verdict_any in Hv as (n & r & A & B & C); [|assumption].
      assert (Ho : ordinary n) by (rewrite Forall_forall in H2; auto).
      assert (Hq : Forall noslash (a ++ [x])).
      { rewrite Forall_forall in *. intros y Hy. apply H3. apply in_or_app. apply in_app_or in Hy as [Hy|[->|[]]]; [left; assumption|right; left; reflexivity]. }
      apply (applies_ordinary n (a ++ [x]) r Ho B Hq) in C; [|destruct a; discriminate]. exists n. split; [assumption|].
      destruct C as [[C1 C2]|[C1 C2]].
      * left. split; [assumption|]. rewrite last_last in C2. subst n. apply in_or_app. right. left. reflexivity.
      * right. split; [assumption|]. exists b. rewrite <- C2, <- app_assoc. reflexivity.
    + intros (n & Hn & Hm). assert (Ho : ordinary n) by (rewrite Forall_forall in H2; auto).
      assert (K : forall a x b, path = a ++ x :: b -> ((noslash n /\ last (a ++ [x]) [] = n) \/ (~ noslash n /\ a ++ [x] = split_sep n)) ->
        exists a x b, path = a ++ x :: b /\ verdict lines ([] ++ a ++ [x]) = true).
      { intros a x b E Hc. exists a, x, b. split; [assumption|]. cbn [app]. apply verdict_any; [assumption|].
        exists n. eexists. split; [assumption|]. split; [apply read_ordinary; assumption|].
        apply (applies_ordinary n); [assumption|apply read_ordinary; assumption| |destruct a; discriminate|assumption].
        subst path. rewrite Forall_forall in *. intros y Hy. apply H3. apply in_or_app. apply in_app_or in Hy as [Hy|[->|[]]]; [left; assumption|right; left; reflexivity]. }
      destruct Hm as [[M1 M2]|[M1 [rest M2]]].
      * apply in_split in M2 as (a & b & E). apply (K a n b E). left. rewrite last_last. auto.
      * pose proof (split_sep_nonnil n) as Hs. destruct (exists_last Hs) as (a & x & Ea).
        apply (K a x rest); [rewrite M2, Ea, <- app_assoc; reflexivity|]. right. auto.
Qed.
Print Assumptions C110_meaning.

(** The line that dman writes for a file (no star in its name) makes git ignore that file exactly if the name has no bracket or backslash, does not begin with [#] or [!] and does not
    end with a space. *)
Theorem C110_own_line : forall n, one_line n -> n <> [] -> noslash n -> ~ In ("*"%char : ascii) n ->
  git_ignores n [n] = true <->
  ~ In ("["%char : ascii) n /\ ~ In ("\"%char : ascii) n /\ (forall r, n <> ("#"%char : ascii) :: r /\ n <> ("!"%char : ascii) :: r) /\ (forall r, n <> r ++ [" "%char]).
Proof.
  intros n H1 Hne Hs Hstar. unfold git_ignores, git_lines. rewrite git_lines_one; [|assumption|intros c []]. cbn [rev app ignored_from]. rewrite orb_false_r.
  unfold verdict. cbn [fold_left app]. destruct n as [|c r] eqn:En; [congruence|]. rewrite <- En in *.
  assert (Hread : read_line n = if ceq c "#" then None else
     let s := trim n in
     let (neg, s) := match s with d :: r => if ceq d "!" then (true, r) else (false, s) | [] => (false, []) end in
        let anchored := existsb (fun d => ceq d sep) s in
        Some (mk_rule neg anchored (tokens Plain (match s with d :: r => if ceq d sep then r else s | [] => [] end)))) by (rewrite En; reflexivity).
  rewrite Hread. clear Hread. destruct (trim_prefix n []) as [u Hu]. cbn [app] in Hu. fold (trim n) in Hu. split.
  - intros H. destruct (ceq c "#") eqn:E1; [discriminate|]. cbv zeta in H.
    assert (Hns : forall x, (exists y, trim n = y ++ x) -> existsb (fun d => ceq d sep) x = false).
    { intros x [y Hy]. apply has_slash. intros X. apply Hs. rewrite Hu, Hy. apply in_or_app. left. apply in_or_app. right. exact X. }
    assert (Hst : forall x, (exists y, trim n = y ++ x) -> ~ In Star (tokens Plain x)).
    { intros x [y Hy] X. apply tokens_star in X. apply Hstar. rewrite Hu, Hy. apply in_or_app. left. apply in_or_app. right. exact X. }
    destruct (trim n) as [|d t] eqn:Et.
    + cbn in H. rewrite En in H. discriminate.
    + destruct (ceq d "!") eqn:E2.
      * rewrite Hns in H by (exists [d]; reflexivity). unfold applies in H. cbn [r_anchored r_tokens r_negated] in H.
        destruct (wild _ _); discriminate.
      * rewrite Hns in H by (exists []; reflexivity). unfold applies in H. cbn [r_anchored r_tokens r_negated last] in H.
        assert (E3 : ceq d sep = false).
        { apply ceq_false. intros ->. apply Hs. rewrite Hu. left. reflexivity. }
        rewrite E3 in H. destruct (wild (tokens Plain (d :: t)) n) eqn:Ew; [|discriminate]. clear H.
        apply wild_len in Ew as [L B]; [|apply Hst; exists []; reflexivity].
        pose proof (tokens_len _ _ B) as L2. rewrite Hu in L at 1. rewrite app_length in L.
        assert (Lu : List.length u = 0) by lia. destruct u; [|discriminate]. rewrite app_nil_r in Hu.
        destruct (tokens_full (d :: t) B ltac:(cbn [List.length] in *; lia)) as [B1 B2]. rewrite <- Hu in B1, B2, Et.
        split; [assumption|]. split; [assumption|]. split.
        -- intros r0. rewrite En. apply ceq_false in E1, E2. assert (d = c) by congruence. subst d. split; intros X; congruence.
        -- intros r0 X. pose proof (trim_ends r0 []) as T. rewrite <- X in T. fold (trim n) in T. rewrite Et in T.
           assert (~ In ("\"%char : ascii) r0) by (intros Y; apply B2; rewrite X; apply in_or_app; left; exact Y).
           specialize (T H). rewrite X in T at 1. rewrite app_length in T. cbn in T. lia.
  - intros (B1 & B2 & B3 & B4).
    assert (E1 : ceq c "#" = false) by (apply ceq_false; intros ->; destruct (B3 r) as [X _]; congruence). rewrite E1.
    unfold trim. rewrite trim_keeps by assumption. cbn [app]. rewrite En at 1. 
    assert (E2 : ceq c "!" = false) by (apply ceq_false; intros ->; destruct (B3 r) as [_ X]; congruence). rewrite E2.
    assert (E3 : ceq c sep = false) by (apply ceq_false; intros ->; apply Hs; rewrite En; left; reflexivity). 
    cbv zeta. rewrite (proj2 (has_slash n) Hs). unfold applies. cbn [r_anchored r_tokens r_negated last].
    replace (match n with d :: r0 => if ceq d sep then r0 else n | [] => [] end) with n by (rewrite En, E3; reflexivity).
    rewrite wild_self; [reflexivity|]. intros d Hd. split; intros ->; contradiction.
Qed.
Print Assumptions C110_own_line.

(** After [gitignore], git ignores every file with an ordinary name that was to be ignored, if neither the file as it was nor the names have a line that begins with [!]. *)
Theorem C110_ignored : forall cwd fs dir ignored check fs' p, absolute cwd -> Forall one_line ignored ->
  gitignore cwd fs dir ignored check = Ok fs' ->
  In p ignored -> ordinary p -> p <> $".gitignore" ->
  (forall n r, In n ignored -> n <> ("!"%char : ascii) :: r) ->
  (forall s n r, file_at fs (requested cwd dir ($".gitignore")) = Some (Text s) -> In n (splitlines s) -> n <> ("!"%char : ascii) :: r) ->
  exists s, file_at fs' (requested cwd dir ($".gitignore")) = Some (Text s) /\ git_ignores s (split_sep p) = true.
Proof.
  intros cwd fs dir ignored check fs' p Hc Hi H Hp Ho Hne Hn1 Hn2.
  set (G := requested cwd dir ($".gitignore")) in *.
  pose proof (gitignore_eq cwd fs dir ignored check) as E. rewrite requested_os in E by assumption. fold G in E.
  assert (E' : gitignore cwd fs dir ignored check =
         match gi_entries cwd fs dir ignored check with
         | [_] => os_remove fs G
         | es => write_file fs G (Text (join_lines es))
         end).
  { destruct (lookup fs G) as [[[s|j]|es]|]; try assumption; rewrite H in E; discriminate. }
  clear E. rewrite H in E'.
  destruct (gi_entries_props cwd fs dir ignored check Hi) as (P1 & P2 & P3 & P4 & P5).
  pose proof (fun p => gi_entries_In cwd fs dir ignored check p Hc) as PI.
  set (es := gi_entries cwd fs dir ignored check) in *.
  assert (Hin : In p es) by (apply PI; right; left; exact Hp).
  assert (Ew : write_file fs G (Text (join_lines es)) = Ok fs').
  { destruct es as [|e1 [|e2 es']]; [congruence| |congruence]. exfalso. destruct P5 as [->|[]], Hin as [X|[]]. congruence. }
  exists (join_lines es). split.
  - rewrite (write_file_lookup _ _ _ _ Ew). destruct (loc_eq_dec G G); congruence.
  - unfold git_ignores. rewrite git_lines_join by assumption. apply ignored_prefix.
    pose proof (split_sep_nonnil p) as Hs. destruct (exists_last Hs) as (a & x & Ea). exists a, x, []. split; [exact Ea|]. cbn [app]. rewrite <- Ea.
    apply verdict_any.
    + apply Forall_forall. intros n Hn r Hr. apply PI in Hn.
      assert (Hnb : forall r, n <> ("!"%char : ascii) :: r).
      { intros r'. destruct Hn as [->|[Hn|[(s & Es & Hn) _]]]; [discriminate|apply Hn1, Hn|exact (Hn2 s n r' Es Hn)]. }
      destruct n as [|c n]; [discriminate|]. unfold read_line in Hr. destruct (ceq c "#"); [discriminate|]. cbv zeta in Hr.
      destruct (trim_prefix (c :: n) []) as [u Hu]. cbn [app] in Hu. fold (trim (c :: n)) in Hu. destruct (trim (c :: n)) as [|d t].
      * inversion Hr. reflexivity.
      * destruct (ceq d "!") eqn:E2; [|inversion Hr; reflexivity]. apply ceq_true in E2. subst d. cbn [app] in Hu. exfalso. exact (Hnb _ Hu).
    + exists p. eexists. split; [exact Hin|]. split; [apply read_ordinary; exact Ho|].
      apply (applies_ordinary p); [exact Ho|apply read_ordinary; exact Ho|apply split_sep_noslash|exact Hs|].
      destruct (existsb (fun d => ceq d sep) p) eqn:Es.
      * right. split; [intros X; apply has_slash in X; congruence|reflexivity].
      * apply has_slash in Es. left. split; [exact Es|]. rewrite split_noslash by exact Es. reflexivity.
Qed.
Print Assumptions C110_ignored.

Example C110_example :
  git_ignores (join_lines [$".gitignore"; $"a.json"; $"run/b.json"]) [$"a.json"] = true /\
  git_ignores (join_lines [$".gitignore"; $"a.json"; $"run/b.json"]) [$"mine"; $"a.json"] = true /\
  git_ignores (join_lines [$".gitignore"; $"a.json"; $"run/b.json"]) [$"run"; $"b.json"] = true /\
  git_ignores (join_lines [$".gitignore"; $"a.json"; $"run/b.json"]) [$"b.json"] = false /\
  git_ignores ($"a[1].json") [$"a[1].json"] = false /\ git_ignores ($"a[1].json") [$"a1.json"] = true /\
  git_ignores ($"#1.json") [$"#1.json"] = false /\ git_ignores ($"a?.json") [$"a?.json"] = true.
Proof. repeat split; vm_compute; reflexivity. Qed.
Example C110_ordinary_example : ordinary ($"run/b.json") /\ one_line ($"run/b.json").
Proof.
  split; [split; [discriminate|split; [|split]]|].
  - intros c Hc H. cbn in Hc, H. repeat (destruct Hc as [<-|Hc]; [intuition discriminate|]). contradiction.
  - intros r. repeat split; discriminate.
  - intros r E. apply (f_equal (fun l => last l "x"%char)) in E. rewrite last_last in E. discriminate.
  - intros c Hc. repeat (destruct Hc as [<-|Hc]; [reflexivity|]). contradiction.
Qed.
