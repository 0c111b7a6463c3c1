(** C104: labels of logarithmic axes in SVG figures. *)
From Coq Require Import Ascii String List Bool ZArith QArith Qround Qabs Lqa Lia.
From Verif Require Import Base TickModel.
Import ListNotations.

Lemma rnd_near x : Qabs (x - inject_Z (rnd x)) <= 1 # 2.
Proof.
  pose proof (Qfloor_le x) as H1. pose proof (Qlt_floor x) as H2. rewrite inject_Z_plus in H2. change (inject_Z 1) with 1 in H2.
  unfold rnd. apply Qabs_Qle_condition.
  destruct (Qcompare (x - inject_Z (Qfloor x)) (1 # 2)) eqn:E.
  - apply Qeq_alt in E. destruct (Z.even (Qfloor x)); [|rewrite inject_Z_plus; change (inject_Z 1) with 1]; split; lra.
  - apply Qlt_alt in E. split; lra.
  - apply Qgt_alt in E. rewrite inject_Z_plus. change (inject_Z 1) with 1. split; lra.
Qed.
Lemma inject_lt a b : inject_Z a < inject_Z b -> (a < b)%Z.
Proof. intros H. rewrite <- Zlt_Qlt in H. exact H. Qed.
(** The integer nearest to a number is unique below a half. *)
Lemma near_unique x n : Qabs (x - inject_Z n) < 1 # 2 -> rnd x = n.
Proof.
  intros H. apply Qabs_Qlt_condition in H as [H1 H2]. pose proof (rnd_near x) as R. apply Qabs_Qle_condition in R as [R1 R2].
  assert (A : (rnd x < n + 1)%Z). { apply inject_lt. rewrite inject_Z_plus. change (inject_Z 1) with 1. lra. }
  assert (B : (n < rnd x + 1)%Z). { apply inject_lt. rewrite inject_Z_plus. change (inject_Z 1) with 1. lra. }
  lia.
Qed.

Section S.
Variable log_ratio : Q -> Q -> Q.
Variable digit : Q -> Q -> Z.
Variable tol : Q.
Variables (show_d : Z -> str) (show_s show_g : Q -> str).
Hypothesis tol_small : tol <= 1 # 2.
Local Notation tick := (tick log_ratio digit tol show_d show_s show_g).

(** Spec: [x] is [b] to the power of the integer [n], up to the tolerance. *)
Definition is_power (f : formatter) (x : Q) (n : Z) : Prop := Qabs (log_ratio (Qabs x) (base f) - inject_Z n) < tol.
(** Which ticks are to have no label: all but the powers, if only those are wanted; all with a leading digit that is not in the
    list, if there is one. *)
Definition unlabelled (f : formatter) (x : Q) : Prop :=
  (label_only_base f = true /\ ~ exists n, is_power f x n)
  \/ exists l, sublabels f = Some l /\
     ((exists n, is_power f x n /\ ~ In (digit (base f) (log_ratio (Qabs x) (base f) - inject_Z n)) l)
      \/ ((~ exists n, is_power f x n) /\
          ~ In (digit (base f) (log_ratio (Qabs x) (base f) - inject_Z (Qfloor (log_ratio (Qabs x) (base f))))) l)).
Definition sign (x : Q) (s : str) : Prop := (0 <= x /\ s = []) \/ (x < 0 /\ s = $"-").

Lemma close_iff f x : close_to_int tol (log_ratio (Qabs x) (base f)) = true <-> exists n, is_power f x n.
Proof.
  unfold close_to_int, is_power. set (y := log_ratio (Qabs x) (base f)). rewrite negb_true_iff. split.
  - intros H. exists (rnd y). apply Qnot_le_lt. intros C. apply Qle_bool_iff in C. congruence.
  - intros [n H]. rewrite (near_unique y n) by lra. destruct (Qle_bool _ _) eqn:E; [|reflexivity]. apply Qle_bool_iff in E. lra.
Qed.
Lemma rnd_power f x n : is_power f x n -> rnd (log_ratio (Qabs x) (base f)) = n.
Proof. intros H. apply near_unique. unfold is_power in H. lra. Qed.
Lemma in_list (z : Z) l : existsb (Z.eqb z) l = true <-> In z l.
Proof.
  rewrite existsb_exists. split; [intros (y & H & E); apply Z.eqb_eq in E; subst; exact H | intros H; exists z; split; [exact H | apply Z.eqb_refl]].
Qed.
Lemma not_in_list (z : Z) l : existsb (Z.eqb z) l = false <-> ~ In z l.
Proof. rewrite <- in_list. destruct (existsb _ _); split; congruence. Qed.

Theorem C104_zero : forall f m x, x == 0 -> tick f m x = Ok ($"\$0\$").
Proof. intros f m x H. unfold TickModel.tick. apply Qeq_bool_iff in H. rewrite H. reflexivity. Qed.

Lemma nonzero x : ~ x == 0 -> Qeq_bool x 0 = false.
Proof. intros H. destruct (Qeq_bool x 0) eqn:E; [apply Qeq_bool_iff in E; contradiction | reflexivity]. Qed.
Lemma sign_eq x s : sign x s -> (if Qle_bool 0 x then [] else $"-") = s.
Proof.
  intros [[H ->]|[H ->]]; [apply Qle_bool_iff in H; rewrite H; reflexivity|].
  destruct (Qle_bool 0 x) eqn:E; [apply Qle_bool_iff in E; lra | reflexivity].
Qed.
Lemma hidden f x :
  label_only_base f && negb (close_to_int tol (log_ratio (Qabs x) (base f)))
  || match sublabels f with
     | Some l => negb (existsb (Z.eqb (digit (base f) (log_ratio (Qabs x) (base f)
           - inject_Z (if close_to_int tol (log_ratio (Qabs x) (base f)) then rnd (log_ratio (Qabs x) (base f)) else Qfloor (log_ratio (Qabs x) (base f)))))) l)
     | None => false end = true <-> unlabelled f x.
Proof.
  pose proof (close_iff f x) as C. unfold unlabelled. set (y := log_ratio (Qabs x) (base f)) in *.
  rewrite orb_true_iff, andb_true_iff, negb_true_iff. destruct (close_to_int tol y) eqn:E.
  - destruct (proj1 C eq_refl) as [n Hn]. pose proof (rnd_power f x n Hn) as R. fold y in R. rewrite R. split.
    + intros [[_ X]|H]; [discriminate|]. right. destruct (sublabels f) as [l|]; [|discriminate]. exists l. split; [reflexivity|]. left. exists n.
      split; [exact Hn|]. apply negb_true_iff in H. apply not_in_list. exact H.
    + intros [[_ X]|(l & El & [(k & Hk & X)|[X _]])].
      * exfalso. apply X. exists n. exact Hn.
      * right. rewrite El. apply negb_true_iff, not_in_list. pose proof (rnd_power f x k Hk) as K. fold y in K. rewrite <- R, K. exact X.
      * exfalso. apply X. exists n. exact Hn.
  - assert (N : ~ exists n, is_power f x n) by (intros X; apply C in X; discriminate). split.
    + intros [[H _]|H]; [left; auto|]. right. destruct (sublabels f) as [l|]; [|discriminate]. exists l. split; [reflexivity|]. right.
      split; [exact N|]. apply negb_true_iff in H. apply not_in_list. exact H.
    + intros [[H _]|(l & El & [(k & Hk & X)|[_ X]])]; [left; auto | exfalso; apply N; exists k; exact Hk|].
      right. rewrite El. apply negb_true_iff, not_in_list. exact X.
Qed.
Lemma tick_nonzero f m x : ~ x == 0 ->
  tick f m x =
  let y := log_ratio (Qabs x) (base f) in
  let sg := if Qle_bool 0 x then [] else $"-" in
  let d := close_to_int tol y in
  let bs := if Qeq_bool (base f - inject_Z (Qfloor (base f))) 0 then show_d (Qfloor (base f)) else show_s (base f) in
  if label_only_base f && negb d
     || match sublabels f with Some l => negb (existsb (Z.eqb (digit (base f) (y - inject_Z (if d then rnd y else Qfloor y)))) l) | None => false end
  then Ok []
  else if negb (Qle_bool m (Qabs (if d then inject_Z (rnd y) else y))) then Ok ($"\$" ++ sg ++ show_g (Qabs x) ++ $"\$")
  else if d then Ok ($"\$" ++ sg ++ bs ++ $"^{" ++ show_d (rnd y) ++ $"}\$") else Exn TypeError.
Proof.
  intros H. unfold TickModel.tick. rewrite nonzero by exact H. cbv zeta.
  destruct (label_only_base f && negb _); [reflexivity|]. cbn [orb].
  destruct (match sublabels f with Some _ => _ | None => _ end); [reflexivity|].
  destruct (negb (Qle_bool m _)); [reflexivity|]. destruct (close_to_int tol _); reflexivity.
Qed.
Theorem C104_no_label : forall f m x, ~ x == 0 -> unlabelled f x -> tick f m x = Ok [].
Proof. intros f m x H U. rewrite tick_nonzero by exact H. cbv zeta. rewrite (proj2 (hidden f x) U). reflexivity. Qed.
(** The label of a power: base and exponent, or the number itself if the exponent is below the limit. *)
Theorem C104_powers : forall f m x n s, ~ x == 0 -> ~ unlabelled f x -> is_power f x n -> sign x s ->
  tick f m x = Ok (if Qlt_le_dec (Qabs (inject_Z n)) m then $"\$" ++ s ++ show_g (Qabs x) ++ $"\$"
                   else $"\$" ++ s ++ (if Qeq_dec (base f) (inject_Z (Qfloor (base f))) then show_d (Qfloor (base f)) else show_s (base f))
                          ++ $"^{" ++ show_d n ++ $"}\$").
Proof.
  intros f m x n s H U P S. rewrite tick_nonzero by exact H. cbv zeta.
  match goal with |- (if ?c then _ else _) = _ => destruct c eqn:E end; [exfalso; apply U; apply hidden; exact E|]. clear E.
  rewrite (proj2 (close_iff f x)) by (exists n; exact P). rewrite (rnd_power f x n P), (sign_eq x s S).
  destruct (Qlt_le_dec (Qabs (inject_Z n)) m) as [L|L].
  - destruct (Qle_bool m (Qabs (inject_Z n))) eqn:E; [apply Qle_bool_iff in E; lra | reflexivity].
  - apply Qle_bool_iff in L. rewrite L. cbn [negb].
    destruct (Qeq_dec (base f) (inject_Z (Qfloor (base f)))) as [Eb|Eb].
    + assert (X : Qeq_bool (base f - inject_Z (Qfloor (base f))) 0 = true) by (apply Qeq_bool_iff; lra). rewrite X. reflexivity.
    + rewrite nonzero; [reflexivity|]. intros X. apply Eb. lra.
Qed.
(** Every other tick that is to have a label makes the formatter fail, unless its exponent is below the limit. *)
Theorem C104_fails_iff : forall f m x e,
  tick f m x = Exn e <->
  e = TypeError /\ ~ x == 0 /\ ~ unlabelled f x /\ (~ exists n, is_power f x n) /\ m <= Qabs (log_ratio (Qabs x) (base f)).
Proof.
  intros f m x e. destruct (Qeq_dec x 0) as [Z|Z].
  { rewrite (C104_zero f m x Z). split; [discriminate | intros (_ & N & _); contradiction]. }
  rewrite tick_nonzero by exact Z. cbv zeta. pose proof (close_iff f x) as C. pose proof (hidden f x) as Hd.
  destruct (_ || _) eqn:E.
  { split; [discriminate|]. intros (_ & _ & U & _). exfalso. apply U. apply Hd. reflexivity. }
  assert (U : ~ unlabelled f x) by (intros X; apply Hd in X; discriminate). clear Hd E.
  destruct (close_to_int tol (log_ratio (Qabs x) (base f))) eqn:D.
  - destruct (negb _); (split; [discriminate|]; intros (_ & _ & _ & N & _); exfalso; apply N; apply C; reflexivity).
  - assert (N : ~ exists n, is_power f x n) by (intros X; apply C in X; discriminate).
    destruct (Qle_bool m (Qabs (log_ratio (Qabs x) (base f)))) eqn:L; cbn [negb].
    + apply Qle_bool_iff in L. split; [intros X; inversion X; auto | intros (-> & _); reflexivity].
    + split; [discriminate|]. intros (_ & _ & _ & _ & X). apply Qle_bool_iff in X. congruence.
Qed.
(** With matplotlib's default limit, 0: only zero and powers ever have a label. *)
Theorem C104_default : forall f x s, ~ x == 0 -> s <> [] -> tick f 0 x = Ok s -> exists n, is_power f x n.
Proof.
  intros f x s H Hs T. rewrite tick_nonzero in T by exact H. cbv zeta in T. apply close_iff.
  destruct (_ || _) in T; [inversion T; congruence|]. destruct (close_to_int tol _); [reflexivity|]. exfalso.
  assert (X : Qle_bool 0 (Qabs (log_ratio (Qabs x) (base f))) = true) by (apply Qle_bool_iff, Qabs_nonneg).
  rewrite X in T. discriminate.
Qed.
End S.

(** Powers of 10 with two places: 100 has the label 10^{2}; 20, on an axis with labels for the digits 1 to 9, fails; with labels for powers
    only it has none. *)
Example C104_ex :
  let lr (x b : Q) := if Qeq_bool x 100 then 2 else if Qeq_bool x 20 then 130103 # 100000 else 1 in
  let dg (b e : Q) := if Qeq_bool e 0 then 1%Z else 2%Z in
  let sd (z : Z) := if Z.eqb z 2 then $"2" else $"10" in
  let tk := tick lr dg (1 # 10000000000) sd (fun _ => $"?") (fun _ => $"20") in
  tk (mkF 10 false None) 0 (-(100))%Q = Ok ($"\$-10^{2}\$")
  /\ tk (mkF 10 false (Some [1; 2; 5]%Z)) 0 20 = Exn TypeError
  /\ tk (mkF 10 true None) 0 20 = Ok []
  /\ tk (mkF 10 false (Some [1]%Z)) 0 20 = Ok []
  /\ tk (mkF 10 false None) 2 20 = Ok ($"\$20\$")
  /\ is_power lr (1 # 10000000000) (mkF 10 false None) (-(100)) 2.
Proof. vm_compute. repeat split; reflexivity. Qed.

Print Assumptions C104_zero.
Print Assumptions C104_no_label.
Print Assumptions C104_powers.
Print Assumptions C104_fails_iff.
Print Assumptions C104_default.
