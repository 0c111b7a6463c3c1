(** C58: the text form of tracebacks. *)
From Coq Require Import List Ascii String Bool NArith Lia.
From Verif Require Import Base PosixModel PathModel FrameModel TargetProof.
Import ListNotations.

(** ** Specification *)
Definition occurs (p s : str) : Prop := exists a b, s = a ++ p ++ b.
Definition one_line (s : str) : Prop := ~ In nl s.

(** ** Matching *)
Lemma strip_app p s : strip p (p ++ s) = Some s.
Proof. induction p as [|c p IH]; [reflexivity|]. cbn. destruct (ascii_dec c c); [assumption|congruence]. Qed.
Lemma strip_some p s r : strip p s = Some r -> s = p ++ r.
Proof.
  revert s. induction p as [|c p IH]; intros s H; [destruct s; cbn in H; injection H as <-; reflexivity|]. destruct s as [|d s]; [discriminate|]. cbn in H.
  destruct (ascii_dec c d) as [->|]; [|discriminate]. cbn. f_equal. apply IH. assumption.
Qed.
Lemma greedy_none {A} (k : str -> option A) s :
  (forall a b, s = a ++ b -> one_line a -> k b = None) -> greedy k s = None.
Proof.
  induction s as [|c r IH]; intros H; cbn [greedy].
  - rewrite (H [] [] eq_refl); [reflexivity|intros []].
  - rewrite (H [] (c :: r) eq_refl) by (intros []). destruct (ascii_dec c nl) as [|Hc]; [reflexivity|].
    rewrite IH; [reflexivity|]. intros a b E Ha. apply (H (c :: a) b); [cbn; congruence|]. intros [X|X]; [congruence|auto].
Qed.
Lemma greedy_longest {A} (k : str -> option A) p r x : one_line p -> k r = Some x ->
  (forall a b, a <> [] -> r = a ++ b -> one_line a -> k b = None) -> greedy k (p ++ r) = Some (p, x).
Proof.
  intros Hp Hk Hlong. induction p as [|c p IH]; cbn [app].
  - destruct r as [|c r]; cbn [greedy]; [rewrite Hk; reflexivity|]. destruct (ascii_dec c nl) as [_|Hc].
    + rewrite Hk. reflexivity.
    + rewrite greedy_none; [rewrite Hk; reflexivity|]. intros a b E Ha. apply (Hlong (c :: a) b); [discriminate|cbn; congruence|].
      intros [X|X]; [congruence|auto].
  - cbn [greedy]. destruct (ascii_dec c nl) as [->|Hc]; [exfalso; apply Hp; left; reflexivity|].
    rewrite IH; [reflexivity|]. intros X. apply Hp. right. assumption.
Qed.
Lemma search_here {A} (k : str -> option A) s x : k s = Some x -> search k s = Some x.
Proof. intros H. destruct s; cbn; rewrite H; reflexivity. Qed.
Lemma search_none {A} (k : str -> option A) s : (forall a b, s = a ++ b -> k b = None) -> search k s = None.
Proof.
  induction s as [|c r IH]; intros H; cbn.
  - rewrite (H [] [] eq_refl). reflexivity.
  - rewrite (H [] _ eq_refl). apply IH. intros a b E. apply (H (c :: a)). cbn. congruence.
Qed.
(** Where a suffix of a concatenation starts. *)
Lemma suffix_app (x y a b : str) : x ++ y = a ++ b -> (exists x2, x = a ++ x2 /\ b = x2 ++ y) \/ (exists y1, a = x ++ y1 /\ y = y1 ++ b).
Proof.
  revert a. induction x as [|c x IH]; intros a E.
  - right. exists a. auto.
  - destruct a as [|d a]; [left; exists (c :: x); cbn in E |- *; auto|]. cbn in E. injection E as -> E.
    destruct (IH a E) as [(x2 & -> & ->)|(y1 & -> & ->)]; [left; exists x2|right; exists y1]; auto.
Qed.
(** [p] starts only at its own first character. *)
Lemma strip_none p s : (forall b, s <> p ++ b) -> strip p s = None.
Proof. intros H. destruct (strip p s) eqn:E; [|reflexivity]. apply strip_some in E. exfalso. exact (H _ E). Qed.
Lemma strip_head p s c d : hd_error p = Some c -> hd_error s = Some d -> c <> d -> strip p s = None.
Proof. intros H1 H2 Hn. destruct p as [|x p]; [discriminate|]. destruct s as [|y s]; [discriminate|]. cbn in *. injection H1 as ->. injection H2 as ->. destruct (ascii_dec c d); congruence. Qed.

Lemma take_digits_app ds r : Forall (fun c => is_digit c = true) ds -> (forall c, hd_error r = Some c -> is_digit c = false) -> take_digits (ds ++ r) = (ds, r).
Proof.
  intros Hd Hr. induction Hd as [|c ds Hc Hd IH]; cbn.
  - destruct r as [|c r]; [reflexivity|]. cbn. rewrite (Hr c eq_refl). reflexivity.
  - rewrite Hc, IH. reflexivity.
Qed.

(** A separator such as ", line " that starts with a character it does not contain again: after the separator and a
    text without that character, its first occurrence is in the rest. *)
Lemma no_later (p m t : str) c : hd_error p = Some c -> ~ In c m ->
  forall a b rest, a <> [] -> c :: m ++ t = a ++ b -> b = p ++ rest -> occurs p t.
Proof.
  intros Hp Hm a b rest Ha E Hb. destruct a as [|d a]; [congruence|]. cbn in E. injection E as _ E.
  apply suffix_app in E as [(x2 & E1 & E2)|(y1 & E1 & E2)].
  - destruct x2 as [|e x2].
    + exists [], rest. cbn in *. congruence.
    + exfalso. rewrite Hb in E2. destruct p as [|f p]; [discriminate|]. cbn in Hp, E2. injection Hp as ->. injection E2 as -> _.
      apply Hm. rewrite E1. apply in_or_app. right. left. reflexivity.
  - exists y1, rest. congruence.
Qed.

Section FrameText.
Variables (file name line : str) (no : N).
Hypothesis Hf : one_line file.
Hypothesis Hn : one_line name.
(** What follows the line number does not look like the start of another one. *)
Hypothesis Hclear : ~ occurs ($", line ") (name ++ $": " ++ line).

Lemma after_file_eq t : t = $", line " ++ str_of_N no ++ $", in " ++ name ++ $": " ++ line ->
  forall nm, greedy (strip ($": ")) (name ++ $": " ++ line) = Some nm -> after_file t = Some (str_of_N no, fst nm).
Proof.
  intros -> nm Hg. unfold after_file. rewrite strip_app.
  rewrite take_digits_app; [|apply str_of_N_digits|intros c Hc; cbn in Hc; injection Hc as <-; reflexivity].
  rewrite strip_app, Hg. destruct nm. reflexivity.
Qed.
Lemma frame_found nm : greedy (strip ($": ")) (name ++ $": " ++ line) = Some nm ->
  de_frame (frame_str (mkFrame file no name line)) = Ok (mkFrame file no (fst nm) []).
Proof.
  intros Hg. unfold de_frame, frame_str. cbn [fr_file fr_no fr_name fr_line].
  rewrite (search_here frame_at _ (file, (str_of_N no, fst nm))).
  - destruct (str_of_N no) eqn:En; [destruct (str_of_N_nonnil _ En)|]. rewrite <- En, int_str_of_N. reflexivity.
  - unfold frame_at. rewrite strip_app. apply greedy_longest; [exact Hf|apply (after_file_eq _ eq_refl _ Hg)|].
    intros a b Ha E _. unfold after_file. rewrite strip_none; [reflexivity|]. intros rest Hb.
    set (m := list_ascii_of_string " line " ++ str_of_N no).
    set (t := $", in " ++ name ++ $": " ++ line).
    assert (Ht : occurs ($", line ") t).
    { apply (no_later ($", line ") m t ","%char eq_refl) with (a := a) (b := b) (rest := rest); [|exact Ha| |exact Hb].
      - unfold m. intros X. apply in_app_or in X as [X|X]; [cbn in X; repeat (destruct X as [X|X]; [discriminate|]); exact X|].
        pose proof (str_of_N_digits no) as Hd. unfold digits in Hd. rewrite Forall_forall in Hd. apply Hd in X. discriminate.
      - rewrite <- E. unfold m, t. rewrite <- !app_assoc. reflexivity. }
    apply Hclear. destruct Ht as (a1 & b1 & E1). destruct a1 as [|c a1]; [discriminate|].
    apply (no_later ($", line ") ($" in ") (name ++ $": " ++ line) ","%char eq_refl) with (a := c :: a1) (b := $", line " ++ b1) (rest := b1); [|discriminate|exact E1|reflexivity].
    intros X. cbn in X. repeat (destruct X as [X|X]; [discriminate|]). exact X.
Qed.
End FrameText.

(** ** C58 *)
(** File name, line number and function name come back, the source line is lost: for file and function names on one
    line, when ", line " does not occur after the line number and the source line has no ": ". *)
Theorem C58_frame_round_trip : forall file no name line,
  one_line file -> one_line name -> ~ occurs ($", line ") (name ++ $": " ++ line) -> ~ occurs ($": ") line ->
  de_frame (frame_str (mkFrame file no name line)) = Ok (mkFrame file no name []).
Proof.
  intros file no name line Hf Hn Hc Hl. rewrite (frame_found file name line no Hf Hc (name, line)); [reflexivity|].
  apply greedy_longest; [exact Hn|apply strip_app|]. intros a b Ha E _. apply strip_none. intros rest Hb. apply Hl.
  apply (no_later ($": ") ($" ") line ":"%char eq_refl) with (a := a) (b := b) (rest := rest); [|exact Ha|exact E|exact Hb].
  intros X. cbn in X. destruct X as [X|[]]. discriminate.
Qed.
(** Any text at all: what is read off it is in it, in this order, with a line number of at least one digit; the source
    line is never read. *)
Lemma greedy_some {A} (k : str -> option A) s p x : greedy k s = Some (p, x) -> one_line p /\ exists r, s = p ++ r /\ k r = Some x.
Proof.
  revert p. induction s as [|c r IH]; intros p H; cbn [greedy] in H.
  - destruct (k []) eqn:Ek; [|discriminate]. injection H as <- <-. split; [intros []|]. exists []. auto.
  - destruct (ascii_dec c nl) as [Hc|Hc].
    + destruct (k (c :: r)) eqn:Ek; [|discriminate]. injection H as <- <-. split; [intros []|]. exists (c :: r). auto.
    + destruct (greedy k r) as [[p1 x1]|].
      * injection H as <- <-. destruct (IH p1 eq_refl) as (H1 & r1 & -> & H2). split; [intros [X|X]; [congruence|auto]|]. exists r1. auto.
      * destruct (k (c :: r)) eqn:Ek; [|discriminate]. injection H as <- <-. split; [intros []|]. exists (c :: r). auto.
Qed.
Lemma search_some {A} (k : str -> option A) s x : search k s = Some x -> exists a b, s = a ++ b /\ k b = Some x.
Proof.
  induction s as [|c r IH]; cbn; intros H.
  - destruct (k []) eqn:Ek; [|discriminate]. exists [], []. split; [reflexivity|congruence].
  - destruct (k (c :: r)) eqn:Ek; [exists [], (c :: r); split; [reflexivity|congruence]|]. destruct (IH H) as (a & b & -> & Hb). exists (c :: a), b. auto.
Qed.
Lemma take_digits_spec s ds r : take_digits s = (ds, r) -> s = ds ++ r /\ Forall (fun c => is_digit c = true) ds.
Proof.
  revert ds. induction s as [|c s IH]; cbn; intros ds H.
  - injection H as <- <-. auto.
  - destruct (is_digit c) eqn:Ec; [|injection H as <- <-; auto]. destruct (take_digits s) as [d2 r2]. injection H as <- <-. destruct (IH d2 eq_refl) as [-> Hd]. auto.
Qed.
Theorem C58_what_is_read : forall s f, de_frame s = Ok f ->
  exists before ds line, s = before ++ $"File " ++ fr_file f ++ $", line " ++ ds ++ $", in " ++ fr_name f ++ $": " ++ line /\
    ds <> [] /\ Forall (fun c => is_digit c = true) ds /\ fr_no f = int_of_digits ds /\ one_line (fr_file f) /\ one_line (fr_name f) /\ fr_line f = [].
Proof.
  intros s f H. unfold de_frame in H. destruct (search frame_at s) as [[file [ds name]]|] eqn:Es; [|discriminate].
  destruct ds as [|d ds]; [discriminate|]. injection H as <-. cbn [fr_file fr_no fr_name fr_line].
  apply search_some in Es as (a & b & -> & Hb). unfold frame_at in Hb. destruct (strip ($"File ") b) as [s1|] eqn:E1; [|discriminate].
  apply strip_some in E1 as ->. apply greedy_some in Hb as (Hf & r & -> & Hr). unfold after_file in Hr.
  destruct (strip ($", line ") r) as [s2|] eqn:E2; [|discriminate]. apply strip_some in E2 as ->.
  destruct (take_digits s2) as [ds2 s3] eqn:E3. apply take_digits_spec in E3 as [-> Hd].
  destruct (strip ($", in ") s3) as [s4|] eqn:E4; [|discriminate]. apply strip_some in E4 as ->.
  destruct (greedy (strip ($": ")) s4) as [[nm rest]|] eqn:E5; [|discriminate]. injection Hr as -> ->.
  apply greedy_some in E5 as (Hn & r & -> & Hr). apply strip_some in Hr as ->.
  exists a, (d :: ds), rest. repeat split; try assumption; try discriminate.
Qed.
(** A source line with ": " in it changes the function name: it gets everything up to the last ": ". *)
Theorem C58_source_line_in_name : forall file no name before after,
  one_line file -> one_line name -> one_line before ->
  ~ occurs ($", line ") (name ++ $": " ++ before ++ $": " ++ after) -> ~ occurs ($": ") after ->
  de_frame (frame_str (mkFrame file no name (before ++ $": " ++ after))) = Ok (mkFrame file no (name ++ $": " ++ before) []).
Proof.
  intros file no name before after Hf Hn Hb Hc Ha.
  rewrite (frame_found file name (before ++ $": " ++ after) no Hf Hc (name ++ $": " ++ before, after)); [reflexivity|].
  replace (name ++ $": " ++ before ++ $": " ++ after) with ((name ++ $": " ++ before) ++ $": " ++ after) by (rewrite <- !app_assoc; reflexivity).
  apply greedy_longest; [|apply strip_app|].
  - intros X. apply in_app_or in X as [X|X]; [auto|]. apply in_app_or in X as [X|X]; [|auto]. cbn in X. destruct X as [X|[X|[]]]; discriminate.
  - intros a b Hane E _. apply strip_none. intros rest Hb2. apply Ha.
    apply (no_later ($": ") ($" ") after ":"%char eq_refl) with (a := a) (b := b) (rest := rest); [|exact Hane|exact E|exact Hb2].
    intros X. cbn in X. destruct X as [X|[]]. discriminate.
Qed.

Lemma frames_round l : Forall (fun f => one_line (fr_file f) /\ one_line (fr_name f) /\
    ~ occurs ($", line ") (fr_name f ++ $": " ++ fr_line f) /\ ~ occurs ($": ") (fr_line f)) l ->
  de_frames (map frame_str l) = Ok (map (fun f => mkFrame (fr_file f) (fr_no f) (fr_name f) []) l).
Proof.
  induction 1 as [|f l (H1 & H2 & H3 & H4) Hl IH]; [reflexivity|]. cbn [map de_frames]. destruct f as [file no name line]. cbn in H1, H2, H3, H4.
  rewrite C58_frame_round_trip by assumption. cbn [bind]. rewrite IH. reflexivity.
Qed.
Lemma exc_split t v : one_line t -> one_line v -> ~ In "("%char v -> exc_at (t ++ $"(" ++ v ++ $")") = Some (t, v).
Proof.
  intros Ht Hv Hp. unfold exc_at. rewrite (greedy_longest _ t ($"(" ++ v ++ $")") v); [reflexivity|exact Ht| |].
  - rewrite strip_app. rewrite (greedy_longest _ v ($")") []); [reflexivity|exact Hv|reflexivity|].
    intros a b Ha E _. destruct a as [|c a]; [congruence|]. cbn in E. injection E as _ E. destruct a; [|discriminate]. destruct b; [reflexivity|discriminate].
  - intros a b Ha E _. destruct (strip ($"(") b) eqn:Eb; [|reflexivity]. exfalso. apply strip_some in Eb.
    destruct a as [|c a]; [congruence|]. cbn in E. injection E as _ E. apply Hp.
    assert (Hin : In "("%char (v ++ $")")) by (change (v ++ $")" = a ++ b) in E; rewrite E, Eb; apply in_or_app; right; left; reflexivity).
    apply in_app_or in Hin as [Hin|[Hin|[]]]; [assumption|discriminate].
Qed.
(** A stack whose message is on one line and has no opening bracket comes back, but for the source lines. *)
Theorem C58_stack_round_trip : forall t v cause frames,
  one_line t -> one_line v -> ~ In "("%char v ->
  Forall (fun f => one_line (fr_file f) /\ one_line (fr_name f) /\
    ~ occurs ($", line ") (fr_name f ++ $": " ++ fr_line f) /\ ~ occurs ($": ") (fr_line f)) frames ->
  de_stack (ser_stack (mkStack t v cause frames)) =
  Ok (mkStack t v cause (map (fun f => mkFrame (fr_file f) (fr_no f) (fr_name f) []) frames)).
Proof.
  intros t v cause frames Ht Hv Hp Hf. unfold de_stack, ser_stack. cbn [ss_exc ss_cause ss_frames x_type x_value x_cause x_frames].
  rewrite (search_here exc_at _ (t, v)) by (apply exc_split; assumption). rewrite frames_round by assumption. reflexivity.
Qed.
(** With an opening bracket in the message, type and message come back cut at the last one. *)
Theorem C58_bracket_in_message : forall t a b cause,
  one_line t -> one_line a -> one_line b -> ~ In "("%char b ->
  de_stack (ser_stack (mkStack t (a ++ $"(" ++ b) cause [])) = Ok (mkStack (t ++ $"(" ++ a) b cause []).
Proof.
  intros t a b cause Ht Ha Hb Hp. unfold de_stack, ser_stack. cbn [ss_exc ss_cause ss_frames x_type x_value x_cause x_frames map de_frames].
  rewrite (search_here exc_at _ (t ++ $"(" ++ a, b)); [reflexivity|].
  replace (t ++ $"(" ++ (a ++ $"(" ++ b) ++ $")") with ((t ++ $"(" ++ a) ++ $"(" ++ b ++ $")") by (rewrite <- !app_assoc; reflexivity).
  apply exc_split; [|exact Hb|exact Hp]. intros X. apply in_app_or in X as [X|X]; [auto|]. apply in_app_or in X as [[X|[]]|X]; [discriminate|auto].
Qed.
(** A message with a line break and no brackets cannot be deserialized. *)
Theorem C58_line_break_fails : forall t a b cause frames,
  ~ In "("%char t -> ~ In "("%char a -> ~ In ")"%char a -> ~ In "("%char b ->
  de_stack (ser_stack (mkStack t (a ++ nl :: b) cause frames)) = Exn ValueError.
Proof.
  intros t a b cause frames Ht Ha Ha2 Hb. unfold de_stack, ser_stack. cbn [ss_exc ss_cause ss_frames x_type x_value x_cause x_frames].
  rewrite search_none; [reflexivity|]. intros pre s E. unfold exc_at. rewrite greedy_none; [reflexivity|].
  intros p r Es _. destruct (strip ($"(") r) as [r1|] eqn:Er; [|reflexivity]. apply strip_some in Er.
  (* the bracket is the one behind the type *)
  assert (Hr1 : r1 = (a ++ nl :: b) ++ $")").
  { subst s r. rewrite (app_assoc pre p) in E. set (q := pre ++ p) in *. clearbody q. clear -E Ht Ha Hb.
    apply suffix_app in E as [(x2 & E1 & E2)|(y1 & E1 & E2)].
    - destruct x2 as [|c x2]; [cbn [app] in E2; change ($"(" ++ r1 = $"(" ++ (a ++ nl :: b) ++ $")") in E2; apply app_inv_head in E2; exact E2|]. exfalso. cbn in E2. injection E2 as E2 _. apply Ht. rewrite E1. apply in_or_app. right. left. congruence.
    - destruct y1 as [|c y1]; [cbn [app] in E2; change ($"(" ++ (a ++ nl :: b) ++ $")" = $"(" ++ r1) in E2; apply app_inv_head in E2; auto|]. exfalso. apply (f_equal (@tl ascii)) in E2.
      assert (Hin : In "("%char ((a ++ nl :: b) ++ $")")) by (change ((a ++ nl :: b) ++ $")" = y1 ++ $"(" ++ r1) in E2; rewrite E2; apply in_or_app; right; left; reflexivity).
      apply in_app_or in Hin as [Hin|[Hin|[]]]; [|discriminate]. apply in_app_or in Hin as [Hin|[Hin|Hin]]; [auto|discriminate|auto]. }
  rewrite greedy_none; [reflexivity|]. intros x y Exy Hx. destruct (strip ($")") y) eqn:Ey; [|reflexivity]. exfalso. apply strip_some in Ey.
  rewrite Hr1, <- app_assoc in Exy. apply suffix_app in Exy as [(x2 & E1 & E2)|(y1 & E1 & E2)].
  - destruct x2 as [|c x2]; [cbn in E2; rewrite Ey in E2; discriminate|]. rewrite Ey in E2. cbn in E2. injection E2 as E2 _. apply Ha2. rewrite E1. apply in_or_app. right. left. congruence.
  - destruct y1 as [|c y1]; [cbn in E2; rewrite Ey in E2; discriminate|]. cbn in E2. injection E2 as <- _. apply Hx. rewrite E1. apply in_or_app. right. left. reflexivity.
Qed.

Example C58_example :
  let f := mkFrame ($"/a, line 3, in x: y.py") 42 ($"<lambda>") ($"return x") in
  one_line (fr_file f) /\ one_line (fr_name f) /\
  ~ occurs ($", line ") (fr_name f ++ $": " ++ fr_line f) /\ ~ occurs ($": ") (fr_line f) /\
  de_frame (frame_str f) = Ok (mkFrame ($"/a, line 3, in x: y.py") 42 ($"<lambda>") []) /\
  de_frame (frame_str (mkFrame ($"a.py") 7 ($"run") ($"if x: y"))) = Ok (mkFrame ($"a.py") 7 ($"run: if x") []) /\
  de_stack (ser_stack (mkStack ($"ValueError") ($"bad (x)") true [f])) =
    Ok (mkStack ($"ValueError(bad ") ($"x)") true [mkFrame ($"/a, line 3, in x: y.py") 42 ($"<lambda>") []]) /\
  de_stack (ser_stack (mkStack ($"ValueError") ($"bad" ++ [nl] ++ $"x") true [f])) = Exn ValueError.
Proof.
  intros f. split; [|split; [|split; [|split]]]; [| | | |repeat split; vm_compute; reflexivity].
  1,2: intros X; cbn in X; repeat (destruct X as [X|X]; [discriminate|]); exact X.
  - intros (a & b & E). assert (X : In ","%char (fr_name f ++ $": " ++ fr_line f)) by (rewrite E; apply in_or_app; right; left; reflexivity).
    cbn in X. repeat (destruct X as [X|X]; [discriminate|]). exact X.
  - intros (a & b & E). assert (X : In ":"%char (fr_line f)) by (rewrite E; apply in_or_app; right; left; reflexivity).
    cbn in X. repeat (destruct X as [X|X]; [discriminate|]). exact X.
Qed.
Example C58_read_example :
  de_frame ($"x File a.py, line 007, in f: g: h") = Ok (mkFrame ($"a.py") 7 ($"f: g") []) /\ de_frame ($"File a.py, line , in f: g") = Exn ValueError.
Proof. split; vm_compute; reflexivity. Qed.

Print Assumptions C58_frame_round_trip.
Print Assumptions C58_source_line_in_name.
Print Assumptions C58_stack_round_trip.
Print Assumptions C58_bracket_in_message.
Print Assumptions C58_line_break_fails.
Print Assumptions C58_what_is_read.
