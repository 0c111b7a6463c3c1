(** C103: what [tui.progress] passes on and shows. *)
From Coq Require Import Ascii String List Bool Arith Lia.
From Verif Require Import Base ProgressModel.
Import ListNotations.

(** Spec: the number of steps that are known in advance. *)
Definition known {A} (it : iterable A) (total : option nat) : nat :=
  match total, it_len it with Some t, _ => t | None, Some n => n | None, None => 0 end.
(** The description as a format: the tokens it stands for. *)
Inductive stands_for : str -> list token -> Prop :=
| SNil : stands_for [] []
| SChar c s l : c <> "{"%char -> c <> "}"%char -> stands_for s l -> stands_for (c :: s) (TChar c :: l)
| SOpen s l : stands_for s l -> stands_for ("{"%char :: "{"%char :: s) (TChar "{"%char :: l)
| SClose s l : stands_for s l -> stands_for ("}"%char :: "}"%char :: s) (TChar "}"%char :: l)
| SField f s l : (forall c, In c f -> c <> "{"%char /\ c <> "}"%char) -> stands_for s l ->
    stands_for ("{"%char :: f ++ "}"%char :: s) (TField f :: l).
Definition no_braces (s : str) : Prop := forall c, In c s -> c <> "{"%char /\ c <> "}"%char.

Lemma scan_plain c r : c <> "{"%char -> c <> "}"%char -> scan None (c :: r) = (do l <- scan None r; Ok (TChar c :: l)).
Proof. intros H1 H2. destruct c as [[] [] [] [] [] [] [] []]; try reflexivity; congruence. Qed.
Lemma scan_in f c r : c <> "{"%char -> c <> "}"%char -> scan (Some f) (c :: r) = scan (Some (f ++ [c])) r.
Proof. intros H1 H2. destruct c as [[] [] [] [] [] [] [] []]; try reflexivity; congruence. Qed.
Lemma scan_open r : (forall r', r <> "{"%char :: r') -> scan None ("{"%char :: r) = scan (Some []) r.
Proof. intros H. cbn [scan]. destruct r as [|[[] [] [] [] [] [] [] []] r]; try reflexivity. exfalso. exact (H r eq_refl). Qed.
Lemma scan_field f r : no_braces f -> forall g, scan (Some g) (f ++ "}"%char :: r) = (do l <- scan None r; Ok (TField (g ++ f) :: l)).
Proof.
  intros H. induction f as [|c f IH]; intros g.
  - cbn [app scan]. rewrite app_nil_r. reflexivity.
  - destruct (H c (or_introl eq_refl)) as [H1 H2]. cbn [app]. rewrite scan_in by assumption.
    rewrite IH by (intros d Hd; apply H; right; exact Hd). rewrite <- app_assoc. reflexivity.
Qed.
Lemma scan_sound s l : stands_for s l -> scan None s = Ok l.
Proof.
  induction 1 as [|c s l H1 H2 H IH|s l H IH|s l H IH|f s l Hf H IH].
  - reflexivity.
  - rewrite scan_plain, IH by assumption. reflexivity.
  - cbn [scan]. rewrite IH. reflexivity.
  - cbn [scan]. rewrite IH. reflexivity.
  - rewrite scan_open.
    + rewrite (scan_field f s Hf []). rewrite IH. reflexivity.
    + intros r' E. destruct f as [|c f]; [discriminate|]. destruct (Hf c (or_introl eq_refl)). cbn in E. inversion E. congruence.
Qed.
Lemma scan_complete : forall n s, List.length s <= n ->
  (forall l, scan None s = Ok l -> stands_for s l)
  /\ (forall g l, scan (Some g) s = Ok l -> exists f r l', s = f ++ "}"%char :: r /\ no_braces f /\ l = TField (g ++ f) :: l' /\ stands_for r l').
Proof.
  induction n as [|n IH]; intros s L.
  - destruct s; [|cbn in L; lia]. split; [intros l E; inversion E; constructor | intros g l E; discriminate].
  - destruct s as [|c s]; [split; [intros l E; inversion E; constructor | intros g l E; discriminate]|]. cbn in L. split.
    + intros l E. destruct (ascii_dec c "{") as [->|N1]; [|destruct (ascii_dec c "}") as [->|N2]].
      * destruct s as [|d s]; [discriminate|]. destruct (ascii_dec d "{") as [->|N].
        -- cbn [scan] in E. destruct (scan None s) as [l'|] eqn:Es; [|discriminate]. inversion E; subst. apply SOpen.
           apply (proj1 (IH s ltac:(cbn in L; lia))). exact Es.
        -- rewrite scan_open in E by (intros r' X; inversion X; congruence).
           destruct (proj2 (IH (d :: s) ltac:(lia)) [] l E) as (f & r & l' & -> & Hf & -> & Hr). cbn [app]. apply SField; assumption.
      * destruct s as [|d s]; [discriminate|]. destruct (ascii_dec d "}") as [->|N].
        -- cbn [scan] in E. destruct (scan None s) as [l'|] eqn:Es; [|discriminate]. inversion E; subst. apply SClose.
           apply (proj1 (IH s ltac:(cbn in L; lia))). exact Es.
        -- exfalso. cbn [scan] in E. destruct d as [[] [] [] [] [] [] [] []]; try discriminate. congruence.
      * rewrite scan_plain in E by assumption. destruct (scan None s) as [l'|] eqn:Es; [|discriminate]. inversion E; subst. constructor; try assumption.
        apply (proj1 (IH s ltac:(lia))). exact Es.
    + intros g l E. destruct (ascii_dec c "{") as [->|N1]; [discriminate|]. destruct (ascii_dec c "}") as [->|N2].
      * cbn [scan] in E. destruct (scan None s) as [l'|] eqn:Es; [|discriminate]. inversion E; subst. exists [], s, l'.
        rewrite app_nil_r. split; [reflexivity|]. split; [intros d []|]. split; [reflexivity|]. apply (proj1 (IH s ltac:(lia))). exact Es.
      * rewrite scan_in in E by assumption. destruct (proj2 (IH s ltac:(lia)) _ _ E) as (f & r & l' & -> & Hf & -> & Hr).
        exists (c :: f), r, l'. rewrite <- app_assoc. split; [reflexivity|]. split; [intros d [<-|Hd]; [split; assumption | apply Hf; exact Hd]|].
        split; [reflexivity | exact Hr].
Qed.
Lemma scan_iff s l : scan None s = Ok l <-> stands_for s l.
Proof. split; [apply (proj1 (scan_complete (List.length s) s (le_n _))) | apply scan_sound]. Qed.
Lemma stands_app s l s2 l2 : stands_for s l -> stands_for s2 l2 -> stands_for (s ++ s2) (l ++ l2).
Proof.
  intros H H2. induction H as [|c s l N1 N2 H IH|s l H IH|s l H IH|f s l Hf H IH]; cbn [app].
  - exact H2.
  - apply SChar; assumption.
  - apply SOpen; assumption.
  - apply SClose; assumption.
  - rewrite <- app_assoc. cbn [app]. apply SField; assumption.
Qed.
Definition suffix : str := $" [{i}/{t}]".
Definition suffix_tokens : list token :=
  [TChar " "%char; TChar "["%char; TField ($"i"); TChar "/"%char; TField ($"t"); TChar "]"%char].
Lemma suffix_stands : stands_for suffix suffix_tokens.
Proof. apply scan_iff. reflexivity. Qed.
(** With the suffix a description is a format exactly if it is one without. *)
Lemma stands_suffix : forall s l, stands_for (s ++ suffix) l -> exists l1, l = l1 ++ suffix_tokens /\ stands_for s l1.
Proof.
  intros s l H. remember (s ++ suffix) as q eqn:E. revert s E.
  induction H as [|c q l N1 N2 H IH|q l H IH|q l H IH|f q l Hf H IH]; intros s E.
  - destruct s; discriminate.
  - destruct s as [|d s].
    + exists []. cbn [app]. split; [|constructor]. assert (S : stands_for suffix (TChar c :: l)).
      { change suffix with (@nil ascii ++ suffix). rewrite <- E. apply SChar; assumption. }
      apply scan_iff in S. pose proof (proj2 (scan_iff _ _) suffix_stands) as S2. congruence.
    + cbn [app] in E. inversion E; subst. destruct (IH s eq_refl) as (l1 & -> & K). exists (TChar d :: l1). split; [reflexivity | constructor; assumption].
  - destruct s as [|d [|d2 s]]; cbn [app] in E; try (inversion E; fail).
    inversion E; subst. destruct (IH s eq_refl) as (l1 & -> & K). exists (TChar "{"%char :: l1). split; [reflexivity | apply SOpen; exact K].
  - destruct s as [|d [|d2 s]]; cbn [app] in E; try (inversion E; fail).
    inversion E; subst. destruct (IH s eq_refl) as (l1 & -> & K). exists (TChar "}"%char :: l1). split; [reflexivity | apply SClose; exact K].
  - destruct s as [|d s]; [discriminate|]. cbn [app] in E. inversion E as [[E1 E2]]. subst d.
    assert (D : exists s2, s = f ++ "}"%char :: s2 /\ q = s2 ++ suffix).
    { clear -E2 Hf. revert s E2. induction f as [|c f IHf]; intros s E2; cbn [app] in *.
      - destruct s as [|x s]; cbn [app] in E2; [discriminate|]. inversion E2; subst. exists s. split; reflexivity.
      - destruct s as [|x s]; cbn [app] in E2.
        + exfalso. inversion E2 as [[X1 X2]]. destruct f as [|c2 f]; cbn [app] in X2; [discriminate|]. inversion X2 as [[X3 X4]].
          destruct f as [|c3 f]; cbn [app] in X4; [discriminate|]. inversion X4 as [[X5 X6]].
          destruct (Hf c3) as [Y _]; [right; right; left; reflexivity|]. congruence.
        + inversion E2 as [[X1 X2]]. subst x. destruct (IHf (fun d Hd => Hf d (or_intror Hd)) s X2) as (s2 & -> & ->). exists s2. split; reflexivity. }
    destruct D as (s2 & -> & ->). destruct (IH s2 eq_refl) as (l1 & -> & K). exists (TField f :: l1). split; [reflexivity | apply SField; assumption].
Qed.

Section S.
Variable show : nat -> str.
Variable other : str -> nat -> nat -> res str.
Variable A : Type.
Local Notation progress := (progress show other A).
Local Notation fill := (fill show other).

(** What is passed on is always the beginning of the iterable, in order: all of it, with the iterable's own end, or something is raised. *)
Lemma loop_spec gen : forall items i e ts os x, loop A gen i items e = (ts, os, x) ->
  exists rest, items = os ++ rest /\ List.length ts = List.length os
  /\ (forall j t, nth_error ts j = Some t -> gen (i + 1 + j) = Ok t)
  /\ ((rest = [] /\ x = e) \/ (exists y, rest <> [] /\ x = Some y /\ gen (i + 1 + List.length os) = Exn y)).
Proof.
  induction items as [|o r IH]; intros i e ts os x H; cbn [loop] in H.
  - inversion H; subst. exists []. split; [reflexivity|]. split; [reflexivity|]. split; [intros [|j] t E; discriminate | left; auto].
  - destruct (gen (i + 1)) as [s|y] eqn:E.
    + destruct (loop A gen (i + 1) r e) as [[ts' os'] x'] eqn:El. inversion H; subst. destruct (IH _ _ _ _ _ El) as (rest & -> & Hl & Ht & Hx).
      exists rest. split; [reflexivity|]. split; [cbn; congruence|]. split.
      * intros [|j] t Hj; cbn in Hj; [inversion Hj; subst; rewrite Nat.add_0_r; exact E|]. replace (i + 1 + S j) with (i + 1 + 1 + j) by lia. apply Ht. exact Hj.
      * destruct Hx as [Hx|(y & Hr & Hy & Hg)]; [left; exact Hx|]. right. exists y. split; [exact Hr|]. split; [exact Hy|].
        cbn [List.length]. replace (i + 1 + S (List.length os')) with (i + 1 + 1 + List.length os') by lia. exact Hg.
    + inversion H; subst. exists (o :: r). split; [reflexivity|]. split; [reflexivity|]. split; [intros [|j] t X; discriminate|].
      right. exists y. split; [discriminate|]. split; [reflexivity|]. cbn. rewrite Nat.add_0_r. exact E.
Qed.
Theorem C103_passed_on : forall (it : iterable A) d st total,
  let r := progress it d st total in
  exists rest, it_items it = p_items r ++ rest
  /\ ((rest = [] /\ p_end r = it_end it /\ List.length (p_texts r) = S (List.length (p_items r)))
      \/ (exists e, p_end r = Some e
          /\ ((p_texts r = [] /\ p_items r = []) \/ (rest <> [] /\ List.length (p_texts r) = S (List.length (p_items r)))))).
Proof.
  intros it d st total. cbv zeta. unfold ProgressModel.progress.
  destruct (match (match total with Some t => Some t | None => it_len it end), st with
            | Some (S t), true => (S t, fun i => str_format show other (d ++ $" [{i}/{t}]") i (S t)) | _, _ => (100, fun _ => Ok d) end) as [tt gen].
  destruct (gen 0) as [s|x]; cbn [p_items p_end p_texts].
  - destruct (loop A gen 0 (it_items it) (it_end it)) as [[ts os] x] eqn:E. cbn [p_items p_end p_texts].
    destruct (loop_spec gen _ _ _ _ _ _ E) as (rest & H1 & H2 & _ & H3). exists rest. split; [exact H1|]. cbn [List.length]. rewrite H2.
    destruct H3 as [[-> ->]|(y & N & -> & _)]; [left; auto | right; exists y; auto].
  - exists (it_items it). split; [reflexivity|]. right. exists x. auto.
Qed.
(** The length of the bar: the number of steps if it is known and not 0 and the state is shown, otherwise 100, also if a total
    was given. *)
Theorem C103_length : forall (it : iterable A) d st total,
  p_total (progress it d st total) = if st && negb (known it total =? 0) then known it total else 100.
Proof.
  intros it d st total. unfold ProgressModel.progress, known.
  destruct total as [[|t]|]; [| |destruct (it_len it) as [[|t]|]]; destruct st; cbn [andb negb Nat.eqb];
    repeat (match goal with |- p_total (match ?m with _ => _ end) = _ => destruct m as [?|?] end);
    repeat (match goal with |- p_total (let '(_, _) := ?m in _) = _ => destruct m as [[? ?] ?] end);
    try reflexivity.
Qed.
(** Without the state: all elements are passed on and the text is the description, whatever is in it. *)
Theorem C103_without_state : forall (it : iterable A) d st total, st = false \/ known it total = 0 ->
  p_items (progress it d st total) = it_items it /\ p_end (progress it d st total) = it_end it
  /\ p_texts (progress it d st total) = repeat d (S (List.length (it_items it))).
Proof.
  intros it d st total H. unfold ProgressModel.progress.
  assert (E : match (match total with Some t => Some t | None => it_len it end), st with
            | Some (S t), true => (S t, fun i => str_format show other (d ++ $" [{i}/{t}]") i (S t)) | _, _ => (100, fun _ => Ok d) end = (100, fun _ => Ok d)).
  { unfold known in H. destruct total as [[|t]|]; [| |destruct (it_len it) as [[|t]|]]; destruct st; try reflexivity; destruct H; discriminate. }
  rewrite E. clear E. assert (L : forall items i e, loop A (fun _ => Ok d) i items e = (repeat d (List.length items), items, e)).
  { induction items as [|o r IH]; intros i e; cbn; [reflexivity|]. rewrite IH. reflexivity. }
  rewrite L. cbn. auto.
Qed.
(** With the state: a description without braces is shown with the numbers behind it, and all elements are passed on. *)
Lemma fill_app i t l l2 : fill i t (l ++ l2) = (do x <- fill i t l; do y <- fill i t l2; Ok (x ++ y)).
Proof.
  induction l as [|[c|f] l IH]; cbn [app ProgressModel.fill bind].
  - destruct (fill i t l2); reflexivity.
  - rewrite IH. destruct (fill i t l); cbn [bind]; [|reflexivity]. destruct (fill i t l2); reflexivity.
  - destruct (field_text show other i t f); cbn [bind]; [|reflexivity]. rewrite IH. destruct (fill i t l); cbn [bind]; [|reflexivity].
    destruct (fill i t l2); cbn [bind]; [|reflexivity]. rewrite app_assoc. reflexivity.
Qed.
Definition numbers (i t : nat) : str := $" [" ++ show i ++ $"/" ++ show t ++ $"]".
Lemma fill_suffix i t : fill i t suffix_tokens = Ok (numbers i t).
Proof. reflexivity. Qed.
Lemma plain_stands d : no_braces d -> stands_for d (map TChar d).
Proof.
  induction d as [|c d IH]; intros H; cbn; [constructor|]. destruct (H c (or_introl eq_refl)). constructor; try assumption.
  apply IH. intros x Hx. apply H. right. exact Hx.
Qed.
Lemma fill_plain i t d : fill i t (map TChar d) = Ok d.
Proof. induction d as [|c d IH]; cbn; [reflexivity|]. rewrite IH. reflexivity. Qed.
Theorem C103_with_state : forall (it : iterable A) d total, no_braces d -> known it total <> 0 ->
  p_items (progress it d true total) = it_items it /\ p_end (progress it d true total) = it_end it
  /\ p_texts (progress it d true total) = map (fun i => d ++ numbers i (known it total)) (seq 0 (S (List.length (it_items it)))).
Proof.
  intros it d total Hd Hk. unfold ProgressModel.progress.
  assert (E : exists t, known it total = S t /\ match total with Some t => Some t | None => it_len it end = Some (S t)).
  { unfold known in *. destruct total as [[|t]|]; [congruence|exists t; auto|]. destruct (it_len it) as [[|t]|]; [congruence|exists t; auto|congruence]. }
  destruct E as (t & Et & ->). rewrite Et.
  assert (G : forall i, str_format show other (d ++ $" [{i}/{t}]") i (S t) = Ok (d ++ numbers i (S t))).
  { intros i. unfold str_format. change ($" [{i}/{t}]") with suffix.
    rewrite (scan_sound _ _ (stands_app _ _ _ _ (plain_stands d Hd) suffix_stands)). cbn [bind]. rewrite fill_app, fill_plain. cbn [bind].
    rewrite fill_suffix. reflexivity. }
  rewrite G. set (gen := fun i => str_format show other (d ++ $" [{i}/{t}]") i (S t)).
  assert (L : forall items i e, loop A gen i items e = (map (fun i => d ++ numbers i (S t)) (seq (S i) (List.length items)), items, e)).
  { induction items as [|o r IH]; intros i e; cbn [loop List.length seq map]; [reflexivity|]. unfold gen at 1. rewrite G, IH.
    replace (i + 1) with (S i) by lia. reflexivity. }
  rewrite L. cbn [p_items p_end p_texts]. split; [reflexivity|]. split; [reflexivity|]. reflexivity.
Qed.
(** With braces it can fail before the first element: exactly if the description is not a format (a single brace) or one of its
    fields has no text. *)
Theorem C103_fails_at_once_iff : forall (it : iterable A) d total, known it total <> 0 ->
  (p_texts (progress it d true total) = [] <->
   ~ exists l, stands_for d l /\ forall f, In (TField f) l -> f = $"i" \/ f = $"t" \/ exists s, other f 0 (known it total) = Ok s).
Proof.
  intros it d total Hk. unfold ProgressModel.progress.
  assert (E : exists t, known it total = S t /\ match total with Some t => Some t | None => it_len it end = Some (S t)).
  { unfold known in *. destruct total as [[|t]|]; [congruence|exists t; auto|]. destruct (it_len it) as [[|t]|]; [congruence|exists t; auto|congruence]. }
  destruct E as (t & Et & ->). rewrite Et.
  assert (FI : forall l, (exists s, fill 0 (S t) l = Ok s) <-> forall f, In (TField f) l -> f = $"i" \/ f = $"t" \/ exists s, other f 0 (S t) = Ok s).
  { induction l as [|[c|f] l IH]; cbn [ProgressModel.fill].
    - split; [intros _ f [] | intros _; eexists; reflexivity].
    - split.
      + intros [s E]. destruct (fill 0 (S t) l) as [q|]; [|discriminate]. intros f [X|X]; [discriminate|]. apply (proj1 IH); [eexists; reflexivity | exact X].
      + intros H. destruct (proj2 IH) as [s E]; [intros f X; apply H; right; exact X|]. rewrite E. eexists; reflexivity.
    - unfold field_text. split.
      + intros [s E] g [X|X].
        * inversion X; subst g. destruct (str_eq_dec f ($"i")); [left; assumption|]. destruct (str_eq_dec f ($"t")); [right; left; assumption|].
          destruct (other f 0 (S t)) as [q|]; [right; right; eexists; reflexivity | discriminate].
        * destruct (if str_eq_dec f ($"i") then _ else _) as [q|]; [|discriminate]. cbn [bind] in E.
          destruct (fill 0 (S t) l) as [q2|]; [|discriminate]. apply (proj1 IH); [eexists; reflexivity | exact X].
      + intros H. destruct (proj2 IH) as [s E]; [intros g X; apply H; right; exact X|].
        destruct (H f (or_introl eq_refl)) as [->|[->|[q Eq]]].
        * cbn. rewrite E. eexists; reflexivity.
        * cbn. rewrite E. eexists; reflexivity.
        * destruct (str_eq_dec f ($"i")); [cbn; rewrite E; eexists; reflexivity|]. destruct (str_eq_dec f ($"t")); [cbn; rewrite E; eexists; reflexivity|].
          rewrite Eq. cbn [bind]. rewrite E. eexists; reflexivity. }
  unfold str_format. change ($" [{i}/{t}]") with suffix. destruct (scan None (d ++ suffix)) as [l|e] eqn:Es; cbn [bind].
  - apply scan_iff in Es. destruct (stands_suffix d l Es) as (l1 & -> & S1). rewrite fill_app, fill_suffix.
    destruct (fill 0 (S t) l1) as [x|e] eqn:Ef; cbn [bind].
    + destruct (loop _ _ _ _ _) as [[ts os] y]. cbn [p_texts]. split; [discriminate|]. intros N. exfalso. apply N. exists l1. split; [exact S1|].
      apply FI. eexists; exact Ef.
    + cbn [p_texts]. split; [|reflexivity]. intros _ (l2 & S2 & H2). apply scan_iff in S1, S2. assert (l2 = l1) by congruence. subst l2.
      apply FI in H2 as [s Hs]. congruence.
  - cbn [p_texts]. split; [|reflexivity]. intros _ (l2 & S2 & _). pose proof (stands_app _ _ _ _ S2 suffix_stands) as X. apply scan_iff in X. congruence.
Qed.
End S.

Example C103_ex : forall other,
  let show n := match n with 0 => $"0" | 1 => $"1" | _ => $"2" end in
  let it := mkIter (Some 2) [$"a"; $"b"] None in
  progress show other str it ($"run") true None = mkShown 2 [$"run [0/2]"; $"run [1/2]"; $"run [2/2]"] [$"a"; $"b"] None
  /\ progress show other str it ($"run") false (Some 7) = mkShown 100 [$"run"; $"run"; $"run"] [$"a"; $"b"] None
  /\ progress show other str it ($"set {") true None = mkShown 2 [] [] (Some ValueError)
  /\ progress show other str it ($"set {") false None = mkShown 100 [$"set {"; $"set {"; $"set {"] [$"a"; $"b"] None
  /\ known it None <> 0 /\ no_braces ($"run").
Proof.
  intros other. cbv zeta. repeat (split; [reflexivity|]). split; [discriminate|].
  intros c [<-|[<-|[<-|[]]]]; split; discriminate.
Qed.

Print Assumptions C103_passed_on.
Print Assumptions C103_length.
Print Assumptions C103_without_state.
Print Assumptions C103_with_state.
Print Assumptions C103_fails_at_once_iff.
