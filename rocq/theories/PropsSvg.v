(** C97: what is left of the settings and formatters after saving an SVG figure for LaTeX. *)
From Coq Require Import Ascii String List Bool Arith Lia.
From Verif Require Import Base SvgModel.
Import ListNotations.

(** Spec: the three settings are there. *)
Definition has_settings (rc : params) : Prop :=
  rc ($"svg.fonttype") <> None /\ rc ($"mathtext.default") <> None /\ rc ($"text.usetex") <> None.
(** Spec: how many of the axes have the ticker, counting both directions. *)
Fixpoint uses (fig : list axes) (t : nat) : nat :=
  match fig with
  | [] => 0
  | (x, y) :: r => (if Nat.eq_dec x t then 1 else 0) + (if Nat.eq_dec y t then 1 else 0) + uses r t
  end.
(** Spec: formatters in use were made before. *)
Definition made_before (st : state) : Prop := forall t k, s_fm st t = FSvg k -> k < s_next st.

Lemma visited_uses fig t : count_occ Nat.eq_dec (visited fig) t = uses fig t.
Proof.
  induction fig as [|[x y] r IH]; [reflexivity|]. unfold visited in *. cbn [flat_map fst snd app count_occ uses].
  destruct (Nat.eq_dec x t), (Nat.eq_dec y t); lia.
Qed.
Lemma set_same fm t f : set_formatter fm t f t = f.
Proof. unfold set_formatter. now rewrite Nat.eqb_refl. Qed.
Lemma set_other fm t f x : x <> t -> set_formatter fm t f x = fm x.
Proof. unfold set_formatter. intros H. apply Nat.eqb_neq in H. now rewrite H. Qed.

Section Props.
Variable user_log : nat -> bool.
Notation is_log := (is_log user_log).
Notation replace := (replace user_log).

Lemma replace_spec : forall l n fm ch n2 fm2 t, replace l n fm = (ch, n2, fm2) ->
  n <= n2 /\
  (is_log (fm t) = false \/ count_occ Nat.eq_dec l t = 0 -> fm2 t = fm t /\ forall g, restore g ch t = g t) /\
  (is_log (fm t) = true -> count_occ Nat.eq_dec l t = 1 -> (exists k, fm2 t = FSvg k /\ n <= k) /\ forall g, restore g ch t = fm t) /\
  (is_log (fm t) = true -> 2 <= count_occ Nat.eq_dec l t ->
     (exists k, fm2 t = FSvg k /\ n <= k) /\ exists k, n <= k /\ forall g, restore g ch t = FSvg k).
Proof.
  induction l as [|u r IH]; intros n fm ch n2 fm2 t E; cbn [SvgModel.replace] in E.
  { injection E as <- <- <-. cbn. split; [lia|]. split; [intros _; now split|]. split; intros _ H; exfalso; lia. }
  destruct (is_log (fm u)) eqn:Lu.
  - destruct (replace r (S n) (set_formatter fm u (FSvg n))) as [[ch' n'] fm'] eqn:E'. injection E as <- <- <-.
    apply (IH _ _ _ _ _ t) in E' as (A & B & C & D). cbn [restore fold_left fst snd].
    split; [lia|]. cbn [count_occ].
    destruct (Nat.eq_dec u t) as [->|N].
    + rewrite set_same in B, C, D. rewrite Lu. cbn [SvgModel.is_log] in B, C, D. split; [intros [H|H]; discriminate|]. split.
      * intros _ H. assert (H0 : count_occ Nat.eq_dec r t = 0) by lia. destruct (B (or_intror H0)) as [B1 B2]. split; [exists n; split; [exact B1|lia]|].
        intros g. unfold restore in B2. rewrite B2. apply set_same.
      * intros _ H. destruct (count_occ Nat.eq_dec r t) as [|[|c]] eqn:Ec; [lia| |].
        -- destruct (C eq_refl eq_refl) as [(k & K1 & K2) K3]. split; [exists k; split; [exact K1|lia]|]. exists n. split; [lia|]. intros g. apply K3.
        -- destruct (D eq_refl ltac:(lia)) as [(k & K1 & K2) (j & J1 & J2)]. split; [exists k; split; [exact K1|lia]|].
           exists j. split; [lia|]. intros g. apply J2.
    + rewrite set_other in B, C, D by congruence.
      assert (R : forall g, set_formatter g u (fm u) t = g t) by (intros; apply set_other; congruence). split; [|split].
      * intros H. destruct (B H) as [B1 B2]. split; [exact B1|]. intros g. unfold restore in B2. rewrite B2. apply R.
      * intros H1 H2. destruct (C H1 H2) as [(k & K1 & K2) K3]. split; [exists k; split; [exact K1|lia]|]. intros g. apply K3.
      * intros H1 H2. destruct (D H1 H2) as [(k & K1 & K2) (j & J1 & J2)]. split; [exists k; split; [exact K1|lia]|]. exists j. split; [lia|]. intros g. apply J2.
  - apply (IH _ _ _ _ _ t) in E as (A & B & C & D). cbn [count_occ]. destruct (Nat.eq_dec u t) as [->|N].
    + rewrite Lu in *. split; [exact A|]. split; [intros _; apply B; now left|]. split; discriminate.
    + auto.
Qed.

Variable savefig : params -> tickers -> res unit.
Variable gen_tex : res unit.
Notation write := (write user_log savefig gen_tex).

Lemma old_ok rc : has_settings rc -> exists a b c, rc ($"svg.fonttype") = Some a /\ rc ($"mathtext.default") = Some b /\ rc ($"text.usetex") = Some c /\
  old_params rc keys = Ok [($"svg.fonttype", a); ($"mathtext.default", b); ($"text.usetex", c)].
Proof.
  intros (A & B & C). unfold keys, old_params.
  destruct (rc ($"svg.fonttype")) as [a|]; [|congruence]. destruct (rc ($"mathtext.default")) as [b|]; [|congruence].
  destruct (rc ($"text.usetex")) as [c|]; [|congruence]. exists a, b, c. repeat split.
Qed.
Lemma old_missing rc : ~ has_settings rc -> old_params rc keys = Exn KeyError.
Proof.
  intros N. unfold keys, old_params. destruct (rc ($"svg.fonttype")) as [a|] eqn:A; [|reflexivity].
  destruct (rc ($"mathtext.default")) as [b|] eqn:B; [|reflexivity]. destruct (rc ($"text.usetex")) as [c|] eqn:C; [|reflexivity].
  exfalso. apply N. unfold has_settings. rewrite A, B, C. repeat split; discriminate.
Qed.

(** What the figure is saved with: the three settings for LaTeX, all other settings as they were, a new formatter in every
    ticker of the figure that had a logarithmic one, and the formatters of all other tickers. *)
Definition saved_with (fig : list axes) (st : state) (rc : params) (fm : tickers) : Prop :=
  rc ($"svg.fonttype") = Some (SText ($"none")) /\ rc ($"mathtext.default") = Some (SText ($"regular")) /\
  rc ($"text.usetex") = Some (SBool false) /\
  (forall k, k <> $"svg.fonttype" -> k <> $"mathtext.default" -> k <> $"text.usetex" -> rc k = s_rc st k) /\
  forall t, if andb (is_log (s_fm st t)) (negb (uses fig t =? 0)) then exists k, fm t = FSvg k /\ s_next st <= k else fm t = s_fm st t.

Lemma saved_state fig st : forall ch n fm, replace (visited fig) (s_next st) (s_fm st) = (ch, n, fm) -> saved_with fig st (tex_params (s_rc st)) fm.
Proof.
  intros ch n fm E. split; [reflexivity|]. split; [reflexivity|]. split; [reflexivity|]. split.
  - intros k A B C. unfold tex_params, set_param. destruct (str_eq_dec k ($"text.usetex")); [congruence|]. destruct (str_eq_dec k ($"mathtext.default")); [congruence|]. destruct (str_eq_dec k ($"svg.fonttype")); congruence.
  - intros t. destruct (replace_spec _ _ _ _ _ _ t E) as (A & B & C & D). rewrite visited_uses in *.
    destruct (is_log (s_fm st t)); cbn; [|apply B; now left].
    destruct (uses fig t) as [|[|u]]; cbn; [apply B; now right|now apply C|apply D; [reflexivity|lia]].
Qed.

(** Without [generate_tex] nothing is touched. *)
Theorem C97_plain : forall fig st, write false fig st = (savefig (s_rc st) (s_fm st), st).
Proof. reflexivity. Qed.

(** If saving fails, the replaced settings and formatters stay. *)
Theorem C97_failure_leaks : forall fig st, has_settings (s_rc st) ->
  (forall rc2 fm2, saved_with fig st rc2 fm2 -> exists e, savefig rc2 fm2 = Exn e) ->
  exists e, fst (write true fig st) = Exn e /\
    saved_with fig st (s_rc (snd (write true fig st))) (s_fm (snd (write true fig st))).
Proof.
  intros fig st H F. unfold SvgModel.write. destruct (old_ok _ H) as (a & b & c & _ & _ & _ & ->).
  destruct (replace (visited fig) (s_next st) (s_fm st)) as [[ch n] fm'] eqn:E. apply saved_state in E.
  destruct (F _ _ E) as [e He]. rewrite He. exists e. split; [reflexivity|exact E].
Qed.

(** If saving succeeds, all settings are as before, whether or not LaTeX can be generated; the answer is that of generating
    LaTeX. *)
Theorem C97_settings_restored : forall fig st, has_settings (s_rc st) ->
  (forall rc fm, saved_with fig st rc fm -> savefig rc fm = Ok tt) ->
  fst (write true fig st) = gen_tex /\ forall k, s_rc (snd (write true fig st)) k = s_rc st k.
Proof.
  intros fig st H F. unfold SvgModel.write. destruct (old_ok _ H) as (a & b & c & A & B & C & ->).
  destruct (replace (visited fig) (s_next st) (s_fm st)) as [[ch n] fm'] eqn:E. apply saved_state in E. rewrite (F _ _ E).
  split; [reflexivity|]. intros k. cbn [snd s_rc]. unfold update_params. cbn [fold_left fst snd]. unfold tex_params, set_param.
  destruct (str_eq_dec k ($"text.usetex")) as [->|?]; [congruence|]. destruct (str_eq_dec k ($"mathtext.default")) as [->|?]; [congruence|].
  destruct (str_eq_dec k ($"svg.fonttype")) as [->|?]; congruence.
Qed.

(** The formatter of a ticker is put back exactly if it was not logarithmic or at most one axis of the figure uses the ticker:
    with shared logarithmic axes a new formatter stays. *)
Theorem C97_formatters_restored_iff : forall fig st t, has_settings (s_rc st) -> made_before st ->
  (forall rc fm, saved_with fig st rc fm -> savefig rc fm = Ok tt) ->
  (s_fm (snd (write true fig st)) t = s_fm st t <-> is_log (s_fm st t) = false \/ uses fig t <= 1).
Proof.
  intros fig st t H M F. unfold SvgModel.write. destruct (old_ok _ H) as (a & b & c & _ & _ & _ & ->).
  destruct (replace (visited fig) (s_next st) (s_fm st)) as [[ch n] fm'] eqn:E. rewrite (F _ _ (saved_state _ _ _ _ _ E)). cbn [snd s_fm].
  destruct (replace_spec _ _ _ _ _ _ t E) as (A & B & C & D). rewrite visited_uses in *.
  destruct (is_log (s_fm st t)) eqn:L.
  - destruct (uses fig t) as [|[|u]].
    + destruct (B (or_intror eq_refl)) as [B1 B2]. rewrite B2, B1. split; auto.
    + destruct (C eq_refl eq_refl) as [_ C2]. rewrite C2. split; auto.
    + destruct (D eq_refl ltac:(lia)) as [_ (k & K1 & K2)]. rewrite K2. split.
      * intros X. symmetry in X. apply M in X. lia.
      * intros [X|X]; [discriminate|lia].
  - destruct (B (or_introl eq_refl)) as [B1 B2]. rewrite B2, B1. split; auto.
Qed.
Theorem C97_shared_keeps_new : forall fig st t, has_settings (s_rc st) ->
  (forall rc fm, saved_with fig st rc fm -> savefig rc fm = Ok tt) ->
  is_log (s_fm st t) = true -> 2 <= uses fig t ->
  exists k, s_next st <= k /\ s_fm (snd (write true fig st)) t = FSvg k.
Proof.
  intros fig st t H F L U. unfold SvgModel.write. destruct (old_ok _ H) as (a & b & c & _ & _ & _ & ->).
  destruct (replace (visited fig) (s_next st) (s_fm st)) as [[ch n] fm'] eqn:E. rewrite (F _ _ (saved_state _ _ _ _ _ E)). cbn [snd s_fm].
  destruct (replace_spec _ _ _ _ _ _ t E) as (A & B & C & D). rewrite visited_uses in *.
  destruct (D L U) as [_ (k & K1 & K2)]. exists k. split; [exact K1|apply K2].
Qed.
(** A missing setting is a KeyError before anything is changed. *)
Theorem C97_missing_setting : forall fig st, ~ has_settings (s_rc st) -> write true fig st = (Exn KeyError, st).
Proof. intros fig st H. unfold SvgModel.write. now rewrite (old_missing _ H). Qed.
End Props.

(** Two axes that share a logarithmic x axis (ticker 0), with linear y axes. *)
Definition ex_rc : params := fun k => if str_eq_dec k ($"text.usetex") then Some (SBool true) else Some (SOther 3).
Definition ex_st : state := mkState ex_rc (fun t => FUser t) 5.
Definition ex_fig : list axes := [(0, 1); (0, 2)].
Definition ex_log (n : nat) : bool := n =? 0.
Example C97_example_shared :
  has_settings ex_rc /\ made_before ex_st /\
  s_fm (snd (write ex_log (fun _ _ => Ok tt) (Ok tt) true ex_fig ex_st)) 0 = FSvg 5 /\
  s_fm (snd (write ex_log (fun _ _ => Ok tt) (Ok tt) true [(0, 1)] ex_st)) 0 = FUser 0 /\
  s_rc (snd (write ex_log (fun _ _ => Ok tt) (Ok tt) true ex_fig ex_st)) ($"text.usetex") = Some (SBool true).
Proof. split; [repeat split; discriminate|]. split; [intros t k H; discriminate|]. repeat split. Qed.
Example C97_example_failure :
  fst (write ex_log (fun _ _ => Exn ValueError) (Ok tt) true ex_fig ex_st) = Exn ValueError /\
  s_rc (snd (write ex_log (fun _ _ => Exn ValueError) (Ok tt) true ex_fig ex_st)) ($"text.usetex") = Some (SBool false) /\
  s_fm (snd (write ex_log (fun _ _ => Exn ValueError) (Ok tt) true ex_fig ex_st)) 0 = FSvg 6.
Proof. repeat split. Qed.

Print Assumptions C97_plain.
Print Assumptions C97_failure_leaks.
Print Assumptions C97_settings_restored.
Print Assumptions C97_formatters_restored_iff.
Print Assumptions C97_shared_keeps_new.
Print Assumptions C97_missing_setting.
