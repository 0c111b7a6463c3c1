(** C102: how messages are laid out in layers. *)
From Coq Require Import Ascii String List Bool Arith Lia.
From Verif Require Import Base FormatModel.
Import ListNotations.

(** Spec: one line of text; a line with its indentation (lines of white space are left alone). *)
Definition ends_line (c : ascii) : bool :=
  let n := nat_of_ascii c in ((10 <=? n) && (n <=? 13)) || ((28 <=? n) && (n <=? 30)) || (n =? 133).
Definition one_line (l : str) : Prop := Forall (fun c => ends_line c = false) l.
Definition white (c : ascii) : bool :=
  let n := nat_of_ascii c in ((9 <=? n) && (n <=? 13)) || ((28 <=? n) && (n <=? 32)) || (n =? 133) || (n =? 160).
Definition shifted (p l : str) : str := if forallb white l then l else p ++ l.
(** A part of a format that the standard library refuses as a format of its own: some text but no field. *)
Definition refused (l : list piece) : Prop := (exists s, In (Lit s) l /\ s <> []) /\ forall f, ~ In (Fld f) l.
(** Names with dots between them. *)
Fixpoint dotted (l : list str) : str := match l with [] => [] | [x] => x | x :: r => x ++ "."%char :: dotted r end.
Definition names (stack : list (option str)) : list str := flat_map (fun o => match o with Some s => [s] | None => [] end) stack.

Lemma break_nl : is_break nl = true. Proof. reflexivity. Qed.
Lemma break_ends c : is_break c = ends_line c.
Proof. destruct c as [[] [] [] [] [] [] [] []]; reflexivity. Qed.
Lemma space_white c : is_space c = white c.
Proof. destruct c as [[] [] [] [] [] [] [] []]; reflexivity. Qed.
Lemma spaces_white s : forallb is_space s = forallb white s.
Proof. induction s as [|c s IH]; [reflexivity|]. cbn [forallb]. rewrite space_white, IH. reflexivity. Qed.
Lemma break_space c : is_break c = true -> is_space c = true.
Proof.
  unfold is_break, is_space. intros H. apply existsb_exists in H as [n [Hn E]]. apply existsb_exists. exists n. split; [|exact E].
  cbn in *. intuition.
Qed.
Lemma not_break_10 c : is_break c = false -> (nat_of_ascii c =? 10) = false.
Proof. unfold is_break. cbn [existsb]. destruct (nat_of_ascii c =? 10); [discriminate | reflexivity]. Qed.

Lemma lines_keep_one cur l : one_line l -> lines_keep cur l = match cur ++ l with [] => [] | x => [x] end.
Proof.
  revert cur. induction l as [|c l IH]; intros cur H; cbn [lines_keep].
  - rewrite app_nil_r. destruct cur; reflexivity.
  - inversion H as [|? ? Hc Hl]; subst. rewrite <- break_ends in Hc. rewrite Hc, IH by exact Hl. rewrite <- app_assoc. reflexivity.
Qed.
Lemma indent_one p l : one_line l -> indent p l = shifted p l.
Proof.
  intros H. unfold indent. rewrite lines_keep_one by exact H. cbn [app]. unfold shifted. rewrite <- spaces_white. destruct l as [|c l]; [reflexivity|].
  cbn [map concat]. unfold indent_line, blank. rewrite app_nil_r. reflexivity.
Qed.
Lemma lines_keep_cons l r : forall cur, one_line l -> lines_keep cur (l ++ nl :: r) = (cur ++ l ++ [nl]) :: lines_keep [] r.
Proof.
  induction l as [|c l IH]; intros cur H; cbn [app lines_keep].
  - rewrite break_nl. destruct r as [|d r]; reflexivity.
  - inversion H as [|? ? Hc Hl]; subst. rewrite <- break_ends in Hc. rewrite Hc, IH by exact Hl. rewrite <- app_assoc. reflexivity.
Qed.
Lemma indent_lines p l : Forall one_line l -> indent p (join_nl l) = join_nl (map (shifted p) l).
Proof.
  induction l as [|x l IH]; intros H; [reflexivity|]. inversion H as [|? ? Hx Hl]; subst. destruct l as [|y l].
  - cbn [join_nl map]. apply indent_one. exact Hx.
  - change (join_nl (x :: y :: l)) with (x ++ nl :: join_nl (y :: l)).
    change (join_nl (map (shifted p) (x :: y :: l))) with (shifted p x ++ nl :: join_nl (map (shifted p) (y :: l))).
    rewrite <- IH by exact Hl. unfold indent. rewrite lines_keep_cons by exact Hx. cbn [app map concat].
    unfold indent_line at 1, blank, shifted. rewrite forallb_app. cbn [forallb]. change (is_space nl) with true. rewrite !andb_true_r, !spaces_white.
    destruct (forallb white x); rewrite <- ?app_assoc; reflexivity.
Qed.
Lemma split_one cur l : one_line l -> split_nl cur l = [cur ++ l].
Proof.
  revert cur. induction l as [|c l IH]; intros cur H; cbn [split_nl]; [rewrite app_nil_r; reflexivity|].
  inversion H as [|? ? Hc Hl]; subst. rewrite not_break_10 by (rewrite break_ends; exact Hc). rewrite IH by exact Hl. rewrite <- app_assoc. reflexivity.
Qed.
Lemma split_cons l r : forall cur, one_line l -> split_nl cur (l ++ nl :: r) = (cur ++ l) :: split_nl [] r.
Proof.
  induction l as [|c l IH]; intros cur H; cbn [app split_nl].
  - change (nat_of_ascii nl =? 10) with true. rewrite app_nil_r. reflexivity.
  - inversion H as [|? ? Hc Hl]; subst. rewrite not_break_10 by (rewrite break_ends; exact Hc). rewrite IH by exact Hl. rewrite <- app_assoc. reflexivity.
Qed.
Lemma split_join l : Forall one_line l -> l <> [] -> split_nl [] (join_nl l) = l.
Proof.
  induction l as [|x l IH]; intros H N; [congruence|]. inversion H as [|? ? Hx Hl]; subst. destruct l as [|y l].
  - cbn [join_nl]. rewrite split_one by exact Hx. reflexivity.
  - change (join_nl (x :: y :: l)) with (x ++ nl :: join_nl (y :: l)). rewrite split_cons by exact Hx. rewrite IH by (exact Hl || discriminate). reflexivity.
Qed.

Definition free (l : list piece) : Prop := ~ In (Fld FIndent) l.
Lemma split_indent_free l : forall cur, free l -> split_indent cur l = [cur ++ l].
Proof.
  induction l as [|p l IH]; intros cur H; cbn [split_indent]; [rewrite app_nil_r; reflexivity|].
  assert (Hp : p <> Fld FIndent) by (intros E; apply H; left; exact E).
  assert (Hl : free l) by (intros E; apply H; right; exact E).
  destruct p as [s|f]; [|destruct f; [congruence| | |]]; rewrite IH by exact Hl; rewrite <- app_assoc; reflexivity.
Qed.
Lemma split_indent_two a b : forall cur, free a -> free b -> split_indent cur (a ++ Fld FIndent :: b) = [cur ++ a; b].
Proof.
  induction a as [|p a IH]; intros cur Ha Hb; cbn [app split_indent].
  - rewrite split_indent_free by exact Hb. rewrite app_nil_r. reflexivity.
  - assert (Hp : p <> Fld FIndent) by (intros E; apply Ha; left; exact E).
    assert (Hl : free a) by (intros E; apply Ha; right; exact E).
    destruct p as [s|f]; [|destruct f; [congruence| | |]]; rewrite (IH _ Hl Hb); rewrite <- app_assoc; reflexivity.
Qed.
Lemma split_indent_inv l : forall cur x y, free cur -> split_indent cur l = [x; y] ->
  exists a, x = cur ++ a /\ l = a ++ Fld FIndent :: y /\ free a /\ free y.
Proof.
  induction l as [|p l IH]; intros cur x y Hc E; cbn [split_indent] in E; [discriminate|].
  assert (D : p = Fld FIndent \/ (p <> Fld FIndent /\ split_indent cur (p :: l) = split_indent (cur ++ [p]) l)).
  { destruct p as [s|f]; [right; split; [discriminate | reflexivity]|].
    destruct f; [left; reflexivity | right; split; [discriminate | reflexivity] ..]. }
  destruct D as [->|[N D]].
  - inversion E as [[E1 E2]]. exists []. rewrite app_nil_r. split; [reflexivity|].
    assert (K : forall l cur z, split_indent cur l = [z] -> z = cur ++ l /\ free l).
    { clear. induction l as [|p l IH]; intros cur z E; cbn [split_indent] in E.
      - inversion E. rewrite app_nil_r. split; [reflexivity | intros []].
      - destruct p as [s|[| | |n]].
        1: destruct (IH _ _ E) as [-> F]; split; [rewrite <- app_assoc; reflexivity | intros [X|X]; [discriminate | exact (F X)]].
        1: inversion E as [[E1 E2]]; exfalso; destruct l as [|q l]; [discriminate|]; clear -E2; revert E2; generalize (@nil piece); revert q;
           induction l as [|p l IH]; intros q c E2; cbn [split_indent] in E2; destruct q as [s|[| | |n]]; try discriminate; eapply IH; exact E2.
        all: destruct (IH _ _ E) as [-> F]; split; [rewrite <- app_assoc; reflexivity | intros [X|X]; [discriminate | exact (F X)]]. }
    destruct (K _ _ _ E2) as [-> F]. cbn. split; [reflexivity|]. split; [intros [] | exact F].
  - cbn [split_indent] in D. rewrite D in E.
    assert (Hc2 : free (cur ++ [p])) by (intros X; apply in_app_iff in X as [X|[X|[]]]; [exact (Hc X) | congruence]).
    destruct (IH _ _ _ Hc2 E) as (a & -> & -> & Fa & Fy). exists (p :: a). rewrite <- app_assoc. split; [reflexivity|]. split; [reflexivity|].
    split; [|exact Fy]. intros [X|X]; [congruence | exact (Fa X)].
Qed.

Definition shape (l : list piece) : str := concat (map (fun p => match p with Lit s => s | Fld _ => [sp] end) l).
Lemma shape_field l f : In (Fld f) l -> shape l <> [].
Proof.
  induction l as [|p l IH]; intros H; [destruct H|]. unfold shape. cbn [map concat]. destruct H as [->|H]; [discriminate|].
  intros X. apply app_eq_nil in X as [_ X]. exact (IH H X).
Qed.
Lemma shape_lit l s : In (Lit s) l -> s <> [] -> shape l <> [].
Proof.
  induction l as [|p l IH]; intros H N; [destruct H|]. unfold shape. cbn [map concat]. intros X. apply app_eq_nil in X as [X1 X2].
  destruct H as [->|H]; [contradiction | exact (IH H N X2)].
Qed.
Lemma shape_nil l : shape l = [] -> (forall f, ~ In (Fld f) l) /\ (forall s, In (Lit s) l -> s = []).
Proof.
  intros H. split; [intros f I; exact (shape_field l f I H)|]. intros s I. destruct s as [|c s]; [reflexivity|].
  exfalso. exact (shape_lit l _ I ltac:(discriminate) H).
Qed.
Lemma exists_field l : existsb is_field l = true <-> exists f, In (Fld f) l.
Proof.
  rewrite existsb_exists. split.
  - intros [[s|f] [I E]]; [discriminate | exists f; exact I].
  - intros [f I]. exists (Fld f). split; [exact I | reflexivity].
Qed.
Lemma exists_message l : existsb is_message l = true <-> In (Fld FMessage) l.
Proof.
  rewrite existsb_exists. split.
  - intros [p [I E]]. destruct p as [s|[| | |n]]; try discriminate. exact I.
  - intros I. exists (Fld FMessage). split; [exact I | reflexivity].
Qed.
Lemma inner_fails r l : (exists e, format_inner r l = Exn e) <-> refused l.
Proof.
  unfold format_inner, refused. fold (shape l). split.
  - intros [e E]. destruct (shape l) as [|c q] eqn:Es; [discriminate|].
    destruct (existsb is_message l); [discriminate|]. destruct (existsb is_field l) eqn:Ef; [discriminate|].
    assert (NF : forall f, ~ In (Fld f) l) by (intros f I; apply Bool.diff_true_false; rewrite <- Ef; symmetry; apply exists_field; exists f; exact I).
    split; [|exact NF]. clear E e Ef. revert Es. unfold shape. clear -NF. induction l as [|p l IH]; cbn [map concat]; [discriminate|].
    destruct p as [[|x s]|f]; [|intros _; exists (x :: s); split; [left; reflexivity | discriminate]|exfalso; apply (NF f); left; reflexivity].
    cbn [app]. intros Es. destruct IH as (s & I & N); [intros f I; apply (NF f); right; exact I | exact Es|].
    exists s. split; [right; exact I | exact N].
  - intros [(s & I & N) NF]. destruct (shape l) as [|c q] eqn:Es; [exfalso; exact (shape_lit l s I N Es)|].
    destruct (existsb is_message l) eqn:Em; [exfalso; apply exists_message in Em; exact (NF _ Em)|].
    destruct (existsb is_field l) eqn:Ef; [exfalso; apply exists_field in Ef as [f Hf]; exact (NF _ Hf)|]. eexists; reflexivity.
Qed.
Lemma render_nil r l : shape l = [] -> render r l = [].
Proof.
  intros H. destruct (shape_nil l H) as [NF NL]. unfold render. clear H. induction l as [|p l IH]; [reflexivity|]. cbn [map concat].
  destruct p as [s|f]; [|exfalso; apply (NF f); left; reflexivity]. rewrite (NL s (or_introl eq_refl)). cbn.
  apply IH; [intros f I; apply (NF f); right; exact I | intros q I; apply NL; right; exact I].
Qed.
Lemma inner_ok r l s : format_inner r l = Ok s -> s = if existsb is_message l then base_format r l else render r l.
Proof.
  unfold format_inner. fold (shape l). intros H. destruct (shape l) as [|c q] eqn:Es.
  - inversion H. destruct (existsb is_message l) eqn:Em; [apply exists_message in Em; exfalso; exact (shape_field l _ Em Es)|].
    symmetry. apply render_nil. exact Es.
  - destruct (existsb is_message l); [inversion H; reflexivity|]. destruct (existsb is_field l); inversion H; reflexivity.
Qed.

(** In a layer, with one [%(indent)s] in the format: what is before it, then the rest of the first line behind the
    indentation; every other line, also those of an exception, starts below it. Lines of white space are left alone. *)
Theorem C102_layout : forall a b r l0 rest,
  free a -> free b -> r_indent r <> [] -> ~ refused a -> In (Fld FMessage) b -> ~ In (Fld FMessage) a ->
  Forall one_line (l0 :: rest) -> base_format r b = join_nl (l0 :: rest) ->
  format (a ++ Fld FIndent :: b) r
  = Ok (join_nl ((render r a ++ shifted (r_indent r) l0)
                 :: map (shifted (repeat " "%char (List.length (render r a)) ++ r_indent r)) rest)).
Proof.
  intros a b r l0 rest Fa Fb Hi Ra Mb Ma HL HB. unfold format. rewrite split_indent_two by assumption. cbn [app].
  destruct (r_indent r) as [|i0 i] eqn:Ei; [congruence|]. rewrite <- Ei.
  destruct (format_inner r a) as [pa|e] eqn:Ea; [|exfalso; apply Ra, (inner_fails r); eexists; exact Ea]. cbn [bind].
  destruct (format_inner r b) as [pb|e] eqn:Eb.
  2:{ exfalso. destruct (proj1 (inner_fails r b)) as [_ NF]; [eexists; exact Eb|]. exact (NF _ Mb). }
  cbn [bind]. apply inner_ok in Ea, Eb.
  rewrite (proj2 (exists_message b) Mb) in Eb.
  destruct (existsb is_message a) eqn:Xa; [exfalso; apply Ma, exists_message; exact Xa|]. subst pa pb.
  rewrite HB, split_join by (exact HL || discriminate). inversion HL as [|? ? H0 Hr]; subst.
  rewrite indent_one by exact H0. destruct rest as [|y rest]; [reflexivity|].
  rewrite indent_lines by exact Hr. f_equal.
Qed.
(** Outside layers, or with no or several [%(indent)s], it is what the standard library makes of the format. *)
Theorem C102_otherwise : forall fmt r,
  r_indent r = [] \/ ~ (exists a b, fmt = a ++ Fld FIndent :: b /\ free a /\ free b) ->
  format fmt r = Ok (base_format r fmt).
Proof.
  intros fmt r [H|H]; unfold format.
  - rewrite H. destruct (split_indent [] fmt) as [|x [|y [|z q]]]; reflexivity.
  - destruct (split_indent [] fmt) as [|x [|y [|z q]]] eqn:E; try reflexivity. exfalso. apply H.
    destruct (split_indent_inv fmt [] x y ltac:(intros []) E) as (a & _ & -> & Fa & Fy). exists a, y. auto.
Qed.
(** A format that is accepted outside layers can fail in them: exactly if what is before or after its [%(indent)s] is text
    without fields. *)
Theorem C102_fails_iff : forall fmt r,
  (exists e, format fmt r = Exn e) <->
  r_indent r <> [] /\ exists a b, fmt = a ++ Fld FIndent :: b /\ free a /\ free b /\ (refused a \/ refused b).
Proof.
  intros fmt r. split.
  - intros [e E]. unfold format in E. destruct (split_indent [] fmt) as [|x [|y [|z q]]] eqn:Es; try discriminate.
    destruct (split_indent_inv fmt [] x y ltac:(intros []) Es) as (a & Ex & Ef & Fa & Fy). cbn in Ex. subst x.
    destruct (r_indent r) as [|i0 i]; [discriminate|]. split; [discriminate|]. exists a, y. split; [exact Ef|]. split; [exact Fa|]. split; [exact Fy|].
    destruct (format_inner r a) as [pa|ea] eqn:Ea; [|left; apply (inner_fails r); eexists; exact Ea]. cbn [bind] in E.
    destruct (format_inner r y) as [pb|eb] eqn:Eb; [|right; apply (inner_fails r); eexists; exact Eb]. cbn [bind] in E.
    exfalso. assert (N : forall s cur, split_nl cur s <> []).
    { clear. induction s as [|c s IH]; intros cur; cbn; [discriminate|]. destruct (_ =? _); [discriminate | apply IH]. }
    destruct (split_nl [] pb) eqn:X; [exact (N _ _ X) | discriminate].
  - intros (Hi & a & b & -> & Fa & Fb & R). unfold format. rewrite split_indent_two by assumption. cbn [app].
    destruct (r_indent r) as [|i0 i]; [congruence|]. destruct (format_inner r a) as [pa|e] eqn:Ea; [|eexists; reflexivity].
    destruct R as [R|R].
    + apply (inner_fails r) in R as [e E]. congruence.
    + apply (inner_fails r) in R as [e E]. cbn [bind]. rewrite E. eexists; reflexivity.
Qed.
(** Only spaces are added, whatever ends the lines of the message. *)
Definition solid (s : str) : str := filter (fun c => negb (Ascii.eqb c " "%char)) s.
Lemma solid_app x y : solid (x ++ y) = solid x ++ solid y. Proof. apply filter_app. Qed.
Lemma lines_keep_concat s : forall cur, concat (lines_keep cur s) = cur ++ s.
Proof.
  assert (G : forall n s cur, List.length s <= n -> concat (lines_keep cur s) = cur ++ s).
  { induction n as [|n IH]; intros [|c r] cur L; cbn [lines_keep]; cbn in L; try lia.
    - destruct cur; cbn; rewrite ?app_nil_r; reflexivity.
    - destruct cur; cbn; rewrite ?app_nil_r; reflexivity.
    - destruct (is_break c).
      + destruct r as [|d r']; [cbn; rewrite app_nil_r; reflexivity|]. destruct (_ && _); cbn [concat].
        * rewrite IH by (cbn in L; lia). rewrite <- app_assoc. reflexivity.
        * rewrite IH by (cbn in *; lia). rewrite <- app_assoc. reflexivity.
      + rewrite IH by lia. rewrite <- app_assoc. reflexivity. }
  intros cur. apply (G (List.length s)). apply le_n.
Qed.
Lemma solid_indent p s : solid p = [] -> solid (indent p s) = solid s.
Proof.
  intros Hp. unfold indent. rewrite <- (lines_keep_concat s []) at 2. induction (lines_keep [] s) as [|l q IH]; [reflexivity|].
  cbn [map concat]. rewrite !solid_app, IH. f_equal. unfold indent_line. destruct (blank l); [reflexivity|]. rewrite solid_app, Hp. reflexivity.
Qed.
Lemma split_nl_join s : forall cur, join_nl (split_nl cur s) = cur ++ s.
Proof.
  induction s as [|c s IH]; intros cur; cbn [split_nl]; [cbn; rewrite app_nil_r; reflexivity|].
  destruct (Nat.eqb_spec (nat_of_ascii c) 10) as [E|E].
  - assert (Hc : c = nl) by (rewrite <- (ascii_nat_embedding c), E; reflexivity). subst c.
    assert (N : split_nl [] s <> []) by (clear; generalize (@nil ascii); induction s as [|c s IH]; intros q; cbn; [discriminate|]; destruct (_ =? _); [discriminate | apply IH]).
    specialize (IH []). destruct (split_nl [] s) as [|x q]; [congruence|].
    change (join_nl (cur :: x :: q)) with (cur ++ nl :: join_nl (x :: q)). rewrite IH. reflexivity.
  - rewrite IH, <- app_assoc. reflexivity.
Qed.
Theorem C102_only_spaces_added : forall a b r s,
  free a -> free b -> r_indent r <> [] -> solid (r_indent r) = [] -> In (Fld FMessage) b -> ~ In (Fld FMessage) a ->
  format (a ++ Fld FIndent :: b) r = Ok s -> solid s = solid (render r a ++ base_format r b).
Proof.
  intros a b r s Fa Fb Hi Hs Mb Ma H. unfold format in H. rewrite split_indent_two in H by assumption. cbn [app] in H.
  destruct (r_indent r) as [|i0 i] eqn:Ei; [congruence|]. rewrite <- Ei in *.
  destruct (format_inner r a) as [pa|e] eqn:Ea; [|discriminate]. cbn [bind] in H.
  destruct (format_inner r b) as [pb|e] eqn:Eb; [|discriminate]. cbn [bind] in H. apply inner_ok in Ea, Eb.
  rewrite (proj2 (exists_message b) Mb) in Eb.
  destruct (existsb is_message a) eqn:Xa; [exfalso; apply Ma, exists_message; exact Xa|]. rewrite <- Ea, <- Eb.
  pose proof (split_nl_join pb []) as J. cbn [app] in J. destruct (split_nl [] pb) as [|x q]; [discriminate|].
  assert (Hr : forall n, solid (repeat sp n) = []) by (induction n; [reflexivity | exact IHn]).
  destruct q as [|y q]; inversion H; subst s; rewrite <- J.
  - rewrite !solid_app, solid_indent by exact Hs. reflexivity.
  - change (join_nl (x :: y :: q)) with (x ++ nl :: join_nl (y :: q)).
    rewrite !solid_app. rewrite solid_indent by exact Hs. rewrite <- !app_assoc. f_equal. f_equal.
    change (solid (nl :: ?z)) with (nl :: solid z). f_equal.
    apply solid_indent. rewrite solid_app, Hr, Hs. reflexivity.
Qed.

(** What [pack] gives: with messages of level INFO shown the depth is the indentation; otherwise there is none and the label
    names the owners of the layers. *)
Lemma stack_names stack : format_stack stack = dotted (names stack).
Proof.
  unfold format_stack.
  assert (E : concat (map (fun o : option str => match o with Some s => s ++ ["."%char] | None => [] end) stack)
              = concat (map (fun s => s ++ ["."%char]) (names stack))).
  { induction stack as [|[s|] q IH]; cbn; [reflexivity| |exact IH]. rewrite IH. reflexivity. }
  rewrite E. clear E. induction (names stack) as [|x l IH]; [reflexivity|]. destruct l as [|y l].
  - cbn. rewrite app_nil_r. apply removelast_last.
  - cbn [map concat]. cbn [map concat] in IH. rewrite removelast_app by (destruct y; discriminate). rewrite IH.
    rewrite <- app_assoc. reflexivity.
Qed.
Theorem C102_pack : forall info stack label,
  snd (pack info stack label) = (match stack with [] => [] | _ => if info then repeat " "%char (2 * List.length stack + 1) else [] end)
  /\ fst (pack info stack label)
     = match stack, info with
       | _ :: _, false => $"[@" ++ dotted (names stack) ++ match label with Some l => $" | " ++ l | None => [] end ++ $"]: "
       | _, _ => match label with Some l => $"[" ++ l ++ $"]: " | None => [] end
       end.
Proof.
  intros info stack label. unfold pack. cbn [fst snd]. split.
  - destruct stack as [|o q]; [destruct info; reflexivity|]. cbn [List.length Nat.ltb Nat.leb]. destruct info; [|reflexivity]. cbn [andb].
    assert (G : forall n, concat (repeat ($"  ") n) ++ $" " = repeat " "%char (2 * n + 1)).
    { induction n as [|n IH]; [reflexivity|]. replace (2 * S n + 1) with (S (S (2 * n + 1))) by lia. cbn [repeat concat]. rewrite <- app_assoc, IH. reflexivity. }
    apply (G (S (List.length q))).
  - destruct stack as [|o q]; [rewrite orb_true_r; destruct info; reflexivity|]. rewrite orb_false_r.
    destruct info; [reflexivity|]. rewrite stack_names. reflexivity.
Qed.
(** Both together, for the format used by default ([%(indent)s%(label)s%(message)s]). *)
Definition default_format : list piece := [Fld FIndent; Fld FLabel; Fld FMessage].
Theorem C102_default : forall stack label l0 rest other, stack <> [] ->
  Forall one_line (l0 :: rest) -> one_line (fst (pack true stack label)) ->
  let p := repeat " "%char (2 * List.length stack + 1) in
  format default_format (mkRecord (fst (pack true stack label)) (snd (pack true stack label)) (join_nl (l0 :: rest)) [] other)
  = Ok (join_nl (shifted p (fst (pack true stack label) ++ l0) :: map (shifted p) rest)).
Proof.
  intros stack label l0 rest other HS HL HK p.
  assert (Ei : snd (pack true stack label) = p) by (rewrite (proj1 (C102_pack true stack label)); destruct stack; [congruence | reflexivity]).
  rewrite Ei. set (lab := fst (pack true stack label)) in *.
  assert (Np : p <> []) by (unfold p; rewrite Nat.add_comm; discriminate).
  pose proof (C102_layout [] [Fld FLabel; Fld FMessage] (mkRecord lab p (join_nl (l0 :: rest)) [] other) (lab ++ l0) rest) as X.
  cbn [app r_indent render map concat List.length repeat] in X. apply X.
  - intros [].
  - intros [Y|[Y|[]]]; discriminate.
  - exact Np.
  - intros [(s & [] & _) _].
  - right; left; reflexivity.
  - intros [].
  - inversion HL as [|? ? H0 Hr]; subst. constructor; [apply Forall_app; split; assumption | exact Hr].
  - unfold base_format, render. cbn. rewrite app_nil_r. destruct rest; [reflexivity | rewrite <- app_assoc; reflexivity].
Qed.
Example C102_ex : exists s,
  format default_format (mkRecord (fst (pack true [Some ($"Run")] (Some ($"save")))) (snd (pack true [Some ($"Run")] (Some ($"save"))))
    (join_nl [$"one"; []; $"two"]) [] (fun _ => [])) = Ok s
  /\ s = join_nl [$"   [save]: one"; []; $"   two"].
Proof. eexists. split; reflexivity. Qed.
Example C102_fails_ex : forall r, r_indent r <> [] ->
  (exists e, format [Lit ($"log "); Fld FIndent; Fld FMessage] r = Exn e)
  /\ format [Lit ($"log "); Fld FIndent; Fld FMessage] (mkRecord [] [] ($"x") [] (fun _ => [])) = Ok ($"log x")
  /\ fst (pack false [Some ($"Run"); None; Some ($"Box")] (Some ($"save"))) = $"[@Run.Box | save]: ".
Proof.
  intros r H. split; [|split; reflexivity]. apply C102_fails_iff. split; [exact H|]. exists [Lit ($"log ")], [Fld FMessage].
  split; [reflexivity|]. split; [intros [X|[]]; discriminate|]. split; [intros [X|[]]; discriminate|]. left.
  split; [exists ($"log "); split; [left; reflexivity | discriminate] | intros f [X|[]]; discriminate].
Qed.

Print Assumptions C102_layout.
Print Assumptions C102_otherwise.
Print Assumptions C102_fails_iff.
Print Assumptions C102_only_spaces_added.
Print Assumptions C102_pack.
Print Assumptions C102_default.
