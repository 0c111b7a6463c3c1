(** C111: the LaTeX text of an SVG figure. *)
From Coq Require Import Ascii String List Bool Arith Lia.
From Verif Require Import Base TexModel.
Import ListNotations.

(** ** Specification *)
(** The start of a text in the figure: a table with one column of any kind. *)
Definition opens (o : str) : Prop := exists c, o = $"\begin{tabular}[t]{" ++ c :: $"}".

(** The second line is the first one with [\svgfont{}] put after some of the places where a text starts. *)
Inductive added : str -> str -> Prop :=
| added_none : added [] []
| added_char c s t : added s t -> added (c :: s) (c :: t)
| added_font o s t : opens o -> added s t -> added (o ++ s) (o ++ $"\svgfont{}" ++ t).

(** A line of texts: the second line has [\svgfont{}] at the start of each. *)
Inductive texts : str -> str -> Prop :=
| texts_rest s : (forall a b, s <> a ++ $"\begin{" ++ b) -> texts s s
| texts_more s o body l l' : (forall a b, s <> a ++ $"\begin{" ++ b) -> opens o -> (forall a b, body <> a ++ $"\end{" ++ b) ->
    texts l l' -> texts (s ++ o ++ body ++ $"\end{tabular}" ++ l) (s ++ o ++ $"\svgfont{}" ++ body ++ $"\end{tabular}" ++ l').

(** A line without the spaces and tabs at its start. *)
Fixpoint unindented (s : str) : str :=
  match s with c :: r => if ascii_dec c " " then unindented r else if ascii_dec c (ascii_of_nat 9) then unindented r else s | [] => [] end.

Definition mentions (p s : str) : Prop := exists a b, s = a ++ p ++ b.

(** ** Lemmas *)
Lemma ceq_true a b : ceq a b = true <-> a = b.
Proof. unfold ceq. destruct (ascii_dec a b); split; congruence. Qed.

Lemma strip_some p : forall s r, strip_prefix p s = Some r <-> s = p ++ r.
Proof.
  induction p as [|a p IH]; intros s r; cbn [strip_prefix app].
  - split; congruence.
  - destruct s as [|c s]; [split; discriminate|]. destruct (ceq a c) eqn:E.
    + apply ceq_true in E. subst c. rewrite IH. split; [intros ->; reflexivity|intros X; inversion X; reflexivity].
    + split; [discriminate|]. intros X. inversion X; subst. rewrite (proj2 (ceq_true a a) eq_refl) in E. discriminate.
Qed.

Lemma strip_app p r : strip_prefix p (p ++ r) = Some r.
Proof. apply strip_some. reflexivity. Qed.

Lemma strip_none p s : strip_prefix p s = None <-> forall r, s <> p ++ r.
Proof.
  destruct (strip_prefix p s) as [r|] eqn:E.
  - apply strip_some in E. split; [discriminate|]. intros H. destruct (H r E).
  - split; [|reflexivity]. intros _ r X. apply strip_some in X. congruence.
Qed.

Lemma contains_iff p s : contains p s = true <-> mentions p s.
Proof.
  induction s as [|c s IH]; cbn [contains].
  - destruct (strip_prefix p []) as [r|] eqn:E.
    + apply strip_some in E. split; [|reflexivity]. intros _. exists [], r. exact E.
    + split; [discriminate|]. intros (a & b & X). destruct a; [|discriminate]. apply strip_none with (r := b) in E. contradiction.
  - destruct (strip_prefix p (c :: s)) as [r|] eqn:E.
    + apply strip_some in E. split; [|reflexivity]. intros _. exists [], r. exact E.
    + rewrite IH. split.
      * intros (a & b & ->). exists (c :: a), b. reflexivity.
      * intros (a & b & X). destruct a as [|d a]; [cbn in X; apply strip_none with (r := b) in E; contradiction|]. inversion X; subst. exists a, b. reflexivity.
Qed.

Lemma opening_some s o r : opening s = Some (o, r) <-> opens o /\ s = o ++ r.
Proof.
  unfold opening. destruct (strip_prefix ($"\begin{tabular}[t]{") s) as [[|c q]|] eqn:E.
  - apply strip_some in E. split; [discriminate|]. intros [[c ->] X]. rewrite X in E. rewrite <- app_assoc in E. apply app_inv_head in E. discriminate.
  - apply strip_some in E. destruct (strip_prefix ($"}") q) as [q'|] eqn:F.
    + apply strip_some in F. subst q s. split.
      * intros X. inversion X; subst. split; [exists c; reflexivity|reflexivity].
      * intros [[d ->] X]. rewrite <- app_assoc in X. apply app_inv_head in X. inversion X; subst. reflexivity.
    + split; [discriminate|]. intros [[d ->] X]. subst s. rewrite <- app_assoc in X. apply app_inv_head in X. inversion X; subst.
      apply strip_none with (r := r) in F. exfalso. apply F. reflexivity.
  - split; [discriminate|]. intros [[c ->] X]. rewrite <- app_assoc in X. apply strip_none with (r := (c :: $"}") ++ r) in E. contradiction.
Qed.

Lemma end_some s : forall b a, up_to_end s = Some (b, a) -> s = b ++ $"\end{tabular}" ++ a.
Proof.
  induction s as [|c s IH]; intros b a; cbn [up_to_end].
  - destruct (strip_prefix ($"\end{tabular}") []) as [r|] eqn:E; [|discriminate]. apply strip_some in E. intros X. inversion X; subst. exact E.
  - destruct (strip_prefix ($"\end{tabular}") (c :: s)) as [r|] eqn:E.
    + apply strip_some in E. intros X. inversion X; subst. exact E.
    + destruct (up_to_end s) as [[b' a']|]; [|discriminate]. intros X. inversion X; subst. rewrite (IH b' a eq_refl). reflexivity.
Qed.

Lemma added_same a s t : added s t -> added (a ++ s) (a ++ t).
Proof. intros H. induction a as [|c a IH]; [exact H|]. cbn. apply added_char. exact IH. Qed.

Lemma sub_added n : forall s, List.length s <= n -> added s (sub n s).
Proof.
  induction n as [|n IH]; intros s Hn.
  - destruct s; [constructor|cbn in Hn; lia].
  - destruct s as [|c r]; [constructor|]. cbn [sub]. cbn [List.length] in Hn.
    destruct (opening (c :: r)) as [[o rest]|] eqn:E; [|apply added_char, IH; lia].
    destruct (up_to_end rest) as [[body after]|] eqn:F; [|apply added_char, IH; lia].
    apply opening_some in E as [Ho E]. apply end_some in F.
    assert (L : List.length (c :: r) = List.length o + (List.length body + (List.length ($"\end{tabular}") + List.length after)))
      by (rewrite E, F, !app_length; reflexivity).
    rewrite E, F. apply added_font; [exact Ho|]. rewrite (app_assoc body). rewrite (app_assoc body ($"\end{tabular}") (sub n after)). apply added_same, IH.
    assert (0 < List.length o) by (destruct Ho as [d ->]; rewrite app_length; cbn; lia). cbn [List.length] in L. lia.
Qed.

(** No text starts within what precedes a start. *)
Lemma no_straddle (p : str) s x : (forall a b, s <> a ++ $"\begin{" ++ b) -> forall v a, s = a ++ v -> v <> [] ->
  forall r, v ++ ("\"%char : ascii) :: x <> $"\begin{" ++ r.
Proof.
  intros Hs v a Ea Hv r E.
  destruct v as [|c1 [|c2 [|c3 [|c4 [|c5 [|c6 [|c7 v]]]]]]]; try congruence; cbn in E; try discriminate.
  inversion E; subst. eapply (Hs a v). cbn. reflexivity.
Qed.

Lemma no_straddle_end body x : (forall a b, body <> a ++ $"\end{" ++ b) -> forall v a, body = a ++ v -> v <> [] ->
  forall r, v ++ ("\"%char : ascii) :: x <> $"\end{" ++ r.
Proof.
  intros Hs v a Ea Hv r E.
  destruct v as [|c1 [|c2 [|c3 [|c4 [|c5 v]]]]]; try congruence; cbn in E; try discriminate.
  inversion E; subst. eapply (Hs a v). cbn. reflexivity.
Qed.

Lemma opens_slash o : opens o -> exists x, o = ("\"%char : ascii) :: x /\ exists y, o = $"\begin{" ++ y.
Proof. intros [c ->]. eexists. split; [reflexivity|]. eexists. cbn. reflexivity. Qed.

Lemma end_find body : forall r, (forall a b, body <> a ++ $"\end{" ++ b) -> up_to_end (body ++ $"\end{tabular}" ++ r) = Some (body, r).
Proof.
  induction body as [|c body IH]; intros r H.
  - cbn [app]. change ($"\end{tabular}" ++ r) with (("\"%char : ascii) :: ($"end{tabular}" ++ r)). unfold up_to_end. fold up_to_end.
    change (("\"%char : ascii) :: ($"end{tabular}" ++ r)) with ($"\end{tabular}" ++ r). rewrite strip_app. reflexivity.
  - cbn [app up_to_end].
    destruct (strip_prefix ($"\end{tabular}") (c :: body ++ $"\end{tabular}" ++ r)) as [q|] eqn:E.
    + exfalso. apply strip_some in E. apply (no_straddle_end (c :: body) ($"end{tabular}" ++ r) H (c :: body) [] eq_refl ltac:(discriminate) ($"tabular}" ++ q)). exact E.
    + rewrite IH; [reflexivity|]. intros a b X. apply (H (c :: a) b). rewrite X. reflexivity.
Qed.

Lemma sub_none n : forall s, List.length s <= n -> (forall a b, s <> a ++ $"\begin{" ++ b) -> sub n s = s.
Proof.
  induction n as [|n IH]; intros s Hn Hs.
  - destruct s; [reflexivity|cbn in Hn; lia].
  - destruct s as [|c r]; [reflexivity|]. cbn [sub]. destruct (opening (c :: r)) as [[o q]|] eqn:E.
    + exfalso. apply opening_some in E as [Ho E]. destruct (opens_slash o Ho) as (x & _ & y & Ey). apply (Hs [] (y ++ q)). rewrite E, Ey, <- app_assoc. reflexivity.
    + rewrite IH; [reflexivity|cbn in Hn; lia|]. intros a b X. apply (Hs (c :: a) b). rewrite X. reflexivity.
Qed.

Lemma sub_texts l l' : texts l l' -> forall n, List.length l <= n -> sub n l = l'.
Proof.
  intros H. induction H as [s Hs|s o body l l' Hs Ho Hb Hl IH]; intros n Hn.
  - apply sub_none; assumption.
  - revert n Hn. induction s as [|c s IHs]; intros n Hn.
    + cbn [app] in *. destruct (opens_slash o Ho) as (x & Ex & _).
      assert (E : opening (o ++ body ++ $"\end{tabular}" ++ l) = Some (o, body ++ $"\end{tabular}" ++ l)) by (apply opening_some; auto).
      destruct n as [|n]; [rewrite app_length, Ex in Hn; cbn in Hn; lia|].
      assert (D : o ++ body ++ $"\end{tabular}" ++ l = ("\"%char : ascii) :: (x ++ body ++ $"\end{tabular}" ++ l)) by (rewrite Ex; reflexivity).
      rewrite D. cbn [sub]. rewrite <- D, E, end_find by exact Hb. rewrite (IH n); [reflexivity|].
      rewrite !app_length, Ex in Hn. cbn [List.length] in Hn. lia.
    + destruct n as [|n]; [cbn in Hn; lia|]. cbn [app sub].
      destruct (opening (c :: s ++ o ++ body ++ $"\end{tabular}" ++ l)) as [[o' q]|] eqn:E.
      * exfalso. apply opening_some in E as [Ho' E]. destruct (opens_slash o' Ho') as (_ & _ & y & Ey).
        destruct (opens_slash o Ho) as (x & Ex & _). rewrite Ex in E. rewrite Ey, <- app_assoc in E.
        apply (no_straddle [] (c :: s) (x ++ body ++ $"\end{tabular}" ++ l) Hs (c :: s) [] eq_refl ltac:(discriminate) (y ++ q)). exact E.
      * f_equal. apply IHs; [|cbn [app List.length] in Hn; apply le_S_n; exact Hn]. intros a b X. apply (Hs (c :: a) b). rewrite X. reflexivity.
Qed.

Lemma first_with_here p a x b : (forall y, In y a -> ~ mentions p y) -> mentions p x -> first_with p (a ++ x :: b) = Some (List.length a).
Proof.
  intros Ha Hx. induction a as [|y a IH]; cbn [app first_with List.length].
  - rewrite (proj2 (contains_iff p x) Hx). reflexivity.
  - destruct (contains p y) eqn:E; [apply contains_iff in E; destruct (Ha y (or_introl eq_refl) E)|].
    rewrite IH; [reflexivity|]. intros z Hz. apply Ha. right. exact Hz.
Qed.

Lemma first_with_none p l : first_with p l = None <-> forall y, In y l -> ~ mentions p y.
Proof.
  induction l as [|x l IH]; cbn [first_with].
  - split; [intros _ y []|reflexivity].
  - destruct (contains p x) eqn:E.
    + apply contains_iff in E. split; [discriminate|]. intros H. destruct (H x (or_introl eq_refl) E).
    + destruct (first_with p l) as [k|]; cbn [option_map].
      * split; [discriminate|]. intros H. assert (X : Some k = None) by (apply IH; intros y Hy; apply H; right; exact Hy). discriminate.
      * split; [|reflexivity]. intros _ y [<-|Hy]; [intros M; apply contains_iff in M; congruence|apply (proj1 IH eq_refl y Hy)].
Qed.

Lemma blank_unindented c : is_blank_char c = true -> forall r, unindented (c :: r) = unindented r.
Proof.
  intros H r. cbn [unindented]. unfold is_blank_char, ceq in H. destruct (ascii_dec c " "); [reflexivity|]. destruct (ascii_dec c (ascii_of_nat 9)); [reflexivity|discriminate].
Qed.

Lemma blank_prefix a r : forallb is_blank_char a = true -> unindented (a ++ r) = unindented r.
Proof. induction a as [|c a IH]; cbn [forallb app]; [reflexivity|]. intros H. apply andb_true_iff in H as [H1 H2]. rewrite blank_unindented by exact H1. apply IH. exact H2. Qed.

Lemma leading_split s : exists t, s = leading s ++ t /\ forallb is_blank_char (leading s) = true.
Proof.
  induction s as [|c s IH]; [exists []; auto|]. cbn [leading]. destruct (is_blank_char c) eqn:E.
  - destruct IH as (t & E1 & E2). exists t. split; [cbn; rewrite <- E1; reflexivity|cbn; rewrite E; exact E2].
  - exists (c :: s). auto.
Qed.

Definition prefix (a b : str) : Prop := exists t, b = a ++ t.
Lemma common_left a : forall b, prefix (common a b) a.
Proof. induction a as [|c a IH]; intros b; [exists []; reflexivity|]. cbn [common]. destruct b as [|d b]; [exists (c :: a); reflexivity|]. destruct (ceq c d); [|exists (c :: a); reflexivity]. destruct (IH b) as [t Et]. exists t. cbn. rewrite <- Et. reflexivity. Qed.
Lemma common_right a : forall b, prefix (common a b) b.
Proof. induction a as [|c a IH]; intros b; [exists b; reflexivity|]. cbn [common]. destruct b as [|d b]; [exists []; reflexivity|]. destruct (ceq c d) eqn:E; [|exists (d :: b); reflexivity]. apply ceq_true in E. subst d. destruct (IH b) as [t Et]. exists t. cbn. rewrite <- Et. reflexivity. Qed.
Lemma prefix_trans a b c : prefix a b -> prefix b c -> prefix a c.
Proof. intros [t ->] [u ->]. exists (t ++ u). rewrite app_assoc. reflexivity. Qed.

Lemma margin_prefix lines s : In s lines -> forallb is_blank_char s = false -> prefix (margin lines) (leading s).
Proof.
  intros Hs Hb. unfold margin. assert (Hf : In s (filter (fun s => negb (forallb is_blank_char s)) lines)) by (apply filter_In; rewrite Hb; auto).
  destruct (filter _ lines) as [|x r]; [destruct Hf|]. clear Hs Hb lines.
  assert (G : forall r m, prefix (fold_left (fun m s => common m (leading s)) r m) m /\ forall y, In y r -> prefix (fold_left (fun m s => common m (leading s)) r m) (leading y)).
  { clear. induction r as [|y r IH]; intros m; cbn [fold_left].
    - split; [exists []; rewrite app_nil_r; reflexivity|intros y []].
    - destruct (IH (common m (leading y))) as [A B]. split; [eapply prefix_trans; [exact A|apply common_left]|].
      intros z [<-|Hz]; [eapply prefix_trans; [exact A|apply common_right]|apply B, Hz]. }
  destruct (G r (leading x)) as [A B]. destruct Hf as [->|Hf]; [exact A|apply B, Hf].
Qed.

Lemma unindented_blank s : forallb is_blank_char s = true -> unindented s = [].
Proof. intros H. rewrite <- (app_nil_r s). rewrite blank_prefix by exact H. reflexivity. Qed.

Lemma dedent_text lines : map unindented (dedent lines) = map unindented lines.
Proof.
  unfold dedent. rewrite map_map. apply map_ext_in. intros s Hs. destruct (forallb is_blank_char s) eqn:E; [rewrite (unindented_blank s) by exact E; reflexivity|].
  destruct (margin_prefix lines s Hs E) as [t Et]. destruct (leading_split s) as (u & Eu & Hb).
  rewrite Et in Eu, Hb. rewrite forallb_app in Hb. apply andb_true_iff in Hb as [Hb _]. rewrite Eu at 1. rewrite <- app_assoc.
  rewrite skipn_app, skipn_all, Nat.sub_diag. cbn [app skipn]. rewrite Eu. rewrite <- app_assoc. rewrite (blank_prefix (margin lines)) by exact Hb. reflexivity.
Qed.

Lemma indent_text lines : map unindented (indent lines) = map unindented lines.
Proof. unfold indent. rewrite map_map. apply map_ext. intros s. destruct (forallb is_space_char s); [reflexivity|]. apply (blank_prefix ($"  ")). reflexivity. Qed.

(** ** Theorems *)
(** Whatever a line looks like: nothing in it is changed but that [\svgfont{}] is put after some of the places where a text starts. *)
Theorem C111_only_adds : forall line, added line (sub_line line).
Proof. intros line. apply sub_added. apply le_n. Qed.
Print Assumptions C111_only_adds.

(** In a line of texts that are closed, each of them gets it. *)
Theorem C111_every_text : forall line line', texts line line' -> sub_line line = line'.
Proof. intros line line' H. apply (sub_texts line line' H). apply le_n. Qed.
Print Assumptions C111_every_text.

(** The lines up to the first one that mentions [makeatletter] are kept; the lines between it and the first one that mentions [makeatother] are kept but for their indentation, followed by three lines that set the
    font; the others are changed as above. *)
Theorem C111_lines : forall a letter middle other b,
  (forall y, In y a -> ~ mentions ($"makeatletter") y) -> mentions ($"makeatletter") letter ->
  (forall y, In y (a ++ letter :: middle) -> ~ mentions ($"makeatother") y) -> mentions ($"makeatother") other ->
  exists commands, generate_tex (Some (a ++ letter :: middle ++ other :: b)) = Ok (a ++ letter :: commands ++ map sub_line (other :: b)) /\
    map unindented commands = map unindented middle ++ [$"\ifx\svgfont\undefined%"; $"\global\let\svgfont\footnotesize"; $"\fi%    "].
Proof.
  intros a letter middle other b H1 H2 H3 H4. exists (commands middle). split.
  - unfold generate_tex. rewrite (first_with_here _ a letter) by assumption.
    change (a ++ letter :: middle ++ other :: b) with (a ++ (letter :: middle) ++ other :: b) at 1. rewrite app_assoc.
    rewrite (first_with_here _ (a ++ letter :: middle) other b) by assumption. f_equal.
    assert (E1 : firstn (List.length a + 1) (a ++ letter :: middle ++ other :: b) = a ++ [letter]).
    { rewrite firstn_app. rewrite firstn_all2 by lia. replace (List.length a + 1 - List.length a) with 1 by lia. reflexivity. }
    assert (E2 : forall x, skipn (List.length (a ++ letter :: middle)) ((a ++ letter :: middle) ++ x) = x).
    { intros x. rewrite skipn_app, skipn_all, Nat.sub_diag. reflexivity. }
    assert (E3 : forall x, firstn (List.length (a ++ letter :: middle)) ((a ++ letter :: middle) ++ x) = a ++ letter :: middle).
    { intros x. rewrite firstn_app, firstn_all, Nat.sub_diag. cbn. rewrite app_nil_r. reflexivity. }
    replace (a ++ letter :: middle ++ other :: b) with ((a ++ letter :: middle) ++ other :: b) by (rewrite <- app_assoc; reflexivity).
    rewrite E2, E3. replace ((a ++ letter :: middle) ++ other :: b) with (a ++ letter :: middle ++ other :: b) by (rewrite <- app_assoc; reflexivity).
    rewrite E1. rewrite <- app_assoc. cbn [app]. do 3 f_equal.
    rewrite skipn_app. rewrite skipn_all2 by lia. replace (List.length a + 1 - List.length a) with 1 by lia. reflexivity.
  - unfold commands. rewrite indent_text, map_app, dedent_text. reflexivity.
Qed.
Print Assumptions C111_lines.

(** If the first line that mentions [makeatother] comes first, then it and the lines up to the one that mentions [makeatletter] are there twice. *)
Theorem C111_repeated : forall a other middle letter b,
  (forall y, In y a -> ~ mentions ($"makeatother") y) -> mentions ($"makeatother") other ->
  (forall y, In y (a ++ other :: middle) -> ~ mentions ($"makeatletter") y) -> mentions ($"makeatletter") letter ->
  generate_tex (Some (a ++ other :: middle ++ letter :: b)) =
  Ok (a ++ other :: middle ++ letter :: ($"  \ifx\svgfont\undefined%") :: ($"  \global\let\svgfont\footnotesize") :: ($"  \fi%    ") ::
      map sub_line (other :: middle ++ letter :: b)).
Proof.
  intros a other middle letter b H1 H2 H3 H4. unfold generate_tex. rewrite (first_with_here ($"makeatother") a other) by assumption.
  assert (Ea : a ++ other :: middle ++ letter :: b = (a ++ other :: middle) ++ letter :: b) by (rewrite <- app_assoc; reflexivity).
  rewrite Ea at 1. rewrite (first_with_here _ (a ++ other :: middle) letter b) by assumption. f_equal.
  assert (E1 : firstn (List.length (a ++ other :: middle) + 1) (a ++ other :: middle ++ letter :: b) = a ++ other :: middle ++ [letter]).
  { rewrite Ea, firstn_app. rewrite firstn_all2 by lia. replace (List.length (a ++ other :: middle) + 1 - List.length (a ++ other :: middle)) with 1 by lia.
    rewrite <- app_assoc. reflexivity. }
  assert (E2 : skipn (List.length a) (a ++ other :: middle ++ letter :: b) = other :: middle ++ letter :: b) by (rewrite skipn_app, skipn_all, Nat.sub_diag; reflexivity).
  assert (E3 : skipn (List.length (a ++ other :: middle) + 1) (firstn (List.length a) (a ++ other :: middle ++ letter :: b)) = []).
  { apply skipn_all2. eapply Nat.le_trans; [apply firstn_le_length|]. rewrite app_length. lia. }
  rewrite E1, E2, E3. rewrite <- app_assoc. cbn [app]. rewrite <- app_assoc. reflexivity.
Qed.
Print Assumptions C111_repeated.

(** It fails exactly if Inkscape wrote nothing, or no line mentions [makeatletter] or none mentions [makeatother]. *)
Theorem C111_fails_iff : forall pdf_tex, (exists e, generate_tex pdf_tex = Exn e) <->
  pdf_tex = None \/ exists content, pdf_tex = Some content /\
    ((forall y, In y content -> ~ mentions ($"makeatletter") y) \/ (forall y, In y content -> ~ mentions ($"makeatother") y)).
Proof.
  intros [content|]; cbn [generate_tex]; [|split; [auto|intros _; eexists; reflexivity]].
  destruct (first_with ($"makeatletter") content) as [i1|] eqn:E1; [destruct (first_with ($"makeatother") content) as [i2|] eqn:E2|].
  - split; [intros [e X]; discriminate|]. intros [X|(c & X & [Y|Y])]; [discriminate| |]; inversion X; subst c; apply first_with_none in Y; congruence.
  - split; [|intros _; eexists; reflexivity]. intros _. right. exists content. split; [reflexivity|]. right. apply first_with_none. exact E2.
  - split; [|intros _; eexists; reflexivity]. intros _. right. exists content. split; [reflexivity|]. left. apply first_with_none. exact E1.
Qed.
Print Assumptions C111_fails_iff.

Example C111_example :
  generate_tex (Some [$"%% Creator"; $"  \makeatletter"; $"    \providecommand"; $"      {x}"; $"  \makeatother";
                      $"\put(0,0){\smash{\begin{tabular}[t]{l}a\end{tabular}}\begin{tabular}[t]{c}b\end{tabular}}"]) =
  Ok [$"%% Creator"; $"  \makeatletter"; $"  \providecommand"; $"    {x}"; $"  \ifx\svgfont\undefined%"; $"  \global\let\svgfont\footnotesize"; $"  \fi%    "; $"  \makeatother";
      $"\put(0,0){\smash{\begin{tabular}[t]{l}\svgfont{}a\end{tabular}}\begin{tabular}[t]{c}\svgfont{}b\end{tabular}}"].
Proof. vm_compute. reflexivity. Qed.
Example C111_texts_example : texts ($"\smash{\begin{tabular}[t]{l}a\end{tabular}}") ($"\smash{\begin{tabular}[t]{l}\svgfont{}a\end{tabular}}").
Proof.
  apply (texts_more ($"\smash{") ($"\begin{tabular}[t]{l}") ($"a") ($"}") ($"}")).
  - intros a b E. apply (proj2 (not_true_iff_false (contains ($"\begin{") ($"\smash{"))) eq_refl). apply contains_iff. exists a, b. exact E.
  - exists "l"%char. reflexivity.
  - intros a b E. apply (proj2 (not_true_iff_false (contains ($"\end{") ($"a"))) eq_refl). apply contains_iff. exists a, b. exact E.
  - apply texts_rest. intros a b E. apply (proj2 (not_true_iff_false (contains ($"\begin{") ($"}"))) eq_refl). apply contains_iff. exists a, b. exact E.
Qed.
