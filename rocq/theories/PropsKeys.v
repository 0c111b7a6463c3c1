(** C26, the texts of keys: what a key of a dict becomes in a JSON file, and which different keys become one. *)
From Coq Require Import Ascii String List Bool Arith ZArith NArith Lia.
From Verif Require Import Base PathModel SerialModel TargetProof PropsNames PropsSerial.
Import ListNotations.

(** Spec: the text of a key. [decimal] (PropsNames.v) is decimal notation without leading zeros. *)
Inductive text_of (fr : Z -> str) : atom -> str -> Prop :=
| text_str s : text_of fr (AStr s) s
| text_natural n s : decimal n s -> text_of fr (AInt (Z.of_N n)) s
| text_negative n s : n <> 0%N -> decimal n s -> text_of fr (AInt (- Z.of_N n)) ("-"%char :: s)
| text_float f : text_of fr (AFloat f) (fr f)
| text_true : text_of fr (ABool true) ($"true")
| text_false : text_of fr (ABool false) ($"false")
| text_none : text_of fr ANone ($"null").

Theorem C26_key_text : forall fr k s, json_key fr k = s <-> text_of fr k s.
Proof.
  assert (F : forall fr k, text_of fr k (json_key fr k)).
  { intros fr [| [] | z | f | s]; try constructor. cbn [json_key]. destruct z as [|p|p]; cbn [str_of_Z].
    - apply (text_natural fr 0). exact (decimal_str 0).
    - apply (text_natural fr (Npos p)). apply decimal_str.
    - apply (text_negative fr (Npos p)); [discriminate|]. apply decimal_str. }
  intros fr k s. split; [intros <-; apply F|]. intros H. destruct H as [| n s H | n s N H | | | |]; try reflexivity; apply decimal_uniq in H as ->.
  - destruct n; reflexivity.
  - destruct n; [congruence|reflexivity].
Qed.

(** Whole numbers never become one key. *)
Theorem C26_whole_numbers_stay_apart : forall fr x y s, text_of fr (AInt x) s -> text_of fr (AInt y) s -> x = y.
Proof.
  assert (D : forall n m s, decimal n ("-"%char :: s) -> decimal m ("-"%char :: s) -> False).
  { intros n m s H _. apply decimal_uniq in H. assert (G := str_of_N_digits n). rewrite <- H in G. inversion G as [|c l Hc]; subst. discriminate. }
  assert (E : forall n s, ~ decimal n ("-"%char :: s)) by (intros n s H; exact (D _ _ _ H H)).
  assert (U : forall n m s, decimal n s -> decimal m s -> n = m).
  { intros n m s A B. apply decimal_uniq in A, B. subst. apply str_of_N_inj. assumption. }
  intros fr x y s A B. inversion A as [|n s1 A1|n s1 A0 A1| | | |]; subst; inversion B as [|m s2 B1|m s2 B0 B1| | | |]; subst.
  - f_equal. eapply U; eassumption.
  - exfalso. eapply E; eassumption.
  - exfalso. eapply E; eassumption.
  - do 2 f_equal. eapply U; eassumption.
Qed.

(** Two different keys become one exactly if one of them is a string and is the text of the other, or two floats have the
    same text, provided that floats are written with a character no other number or word has, such as a dot. *)
Theorem C26_which_keys_become_one : forall fr j k,
  (forall f a s, (forall g, a <> AFloat g) -> (forall t, a <> AStr t) -> text_of fr a s -> fr f <> s) ->
  j <> k ->
  (json_key fr j = json_key fr k <->
   (exists s, j = AStr s /\ text_of fr k s) \/ (exists s, k = AStr s /\ text_of fr j s) \/
   exists f g, j = AFloat f /\ k = AFloat g /\ fr f = fr g).
Proof.
  intros fr j k F N. split.
  - intros H. assert (J : text_of fr j (json_key fr k)) by (apply C26_key_text; exact H).
    assert (K : text_of fr k (json_key fr k)) by (apply C26_key_text; reflexivity).
    destruct j as [|b|x|f|s].
    + destruct k as [|c|y|g|t]; try (destruct c); try congruence; try discriminate H.
      * exfalso. cbn [json_key] in *. inversion K as [|n s1 A1|n s1 A0 A1| | | |]; subst.
        -- apply decimal_uniq in A1. assert (G := str_of_N_digits n). rewrite <- A1 in G. rewrite <- H in G. inversion G; discriminate.
        -- rewrite <- H1 in H. discriminate.
      * exfalso. symmetry in H. revert H. apply (F g ANone); [discriminate|discriminate|constructor].
      * right. left. exists t. split; [reflexivity|exact J].
    + destruct k as [|c|y|g|t].
      * destruct b; discriminate H.
      * destruct b, c; try congruence; discriminate H.
      * exfalso. cbn [json_key] in *. inversion K as [|n s1 A1|n s1 A0 A1| | | |]; subst.
        -- apply decimal_uniq in A1. assert (G := str_of_N_digits n). rewrite <- A1 in G. rewrite <- H in G. destruct b; inversion G; discriminate.
        -- rewrite <- H1 in H. destruct b; discriminate.
      * exfalso. symmetry in H. revert H. apply (F g (ABool b)); [discriminate|discriminate|]. destruct b; constructor.
      * right. left. exists t. split; [reflexivity|exact J].
    + destruct k as [|c|y|g|t].
      * exfalso. cbn [json_key] in J. inversion J as [|n s1 A1|n s1 A0 A1| | | |]; subst.
        apply decimal_uniq in A1. assert (G := str_of_N_digits n). rewrite <- A1 in G. inversion G; discriminate.
      * exfalso. cbn [json_key] in J. destruct c; inversion J as [|n s1 A1|n s1 A0 A1| | | |]; subst;
          apply decimal_uniq in A1; assert (G := str_of_N_digits n); rewrite <- A1 in G; inversion G; discriminate.
      * exfalso. apply N. f_equal. eapply C26_whole_numbers_stay_apart; eassumption.
      * exfalso. symmetry in H. revert H. apply (F g (AInt x)); [discriminate|discriminate|]. apply C26_key_text. reflexivity.
      * right. left. exists t. split; [reflexivity|exact J].
    + destruct k as [|c|y|g|t].
      * exfalso. revert H. apply (F f ANone); [discriminate|discriminate|constructor].
      * exfalso. revert H. apply (F f (ABool c)); [discriminate|discriminate|]. destruct c; constructor.
      * exfalso. revert H. apply (F f (AInt y)); [discriminate|discriminate|]. exact K.
      * right. right. exists f, g. repeat split. exact H.
      * right. left. exists t. split; [reflexivity|exact J].
    + left. exists s. split; [reflexivity|]. cbn [json_key] in H. rewrite H. exact K.
  - intros [(s & -> & H)|[(s & -> & H)|(f & g & -> & -> & H)]].
    + symmetry. apply C26_key_text. exact H.
    + apply C26_key_text. exact H.
    + exact H.
Qed.

(** The hypothesis on floats is met when all are written as "1.5". *)
Example C26_key_example : text_of ex_repr (AInt (-12)) ($"-12") /\
  (forall (f : Z) a s, (forall g, a <> AFloat g) -> (forall t, a <> AStr t) -> text_of (fun _ => $"1.5") a s -> $"1.5" <> s).
Proof.
  split; [apply C26_key_text; reflexivity|]. intros _ a s A B H <-. inversion H as [|n s1 A1|n s1 A0 A1| | | |]; subst.
  - eapply B. reflexivity.
  - apply decimal_uniq in A1. assert (G := str_of_N_digits n). rewrite <- A1 in G. inversion G as [|? ? ? G2]; subst. inversion G2; discriminate.
  - eapply A. reflexivity.
Qed.

Print Assumptions C26_key_text.
Print Assumptions C26_whole_numbers_stay_apart.
Print Assumptions C26_which_keys_become_one.
