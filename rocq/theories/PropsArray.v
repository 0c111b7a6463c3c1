(** C57: arrays saved as text. *)
From Coq Require Import List Bool ZArith Arith Lia.
From Verif Require Import Base ArrayModel.
Import ListNotations.

(** ** Specification *)
(** An array as numpy has them: as many entries as the shape says, all of the array's type. *)
Definition array_ok {F} (a : arr F) : Prop :=
  List.length (a_flat a) = fold_right Nat.mul 1 (a_shape a) /\ Forall (fun x => kind x = a_dtype a) (a_flat a).

Section Round.
Variable F : Type.
Variable flt : Z -> F.

Lemma cast_own d (l : list (num F)) : Forall (fun x => kind x = d) l -> map (cast F flt d) l = l.
Proof. induction 1 as [|x l Hx Hl IH]; [reflexivity|]. cbn. rewrite IH. f_equal. destruct x; cbn in Hx; subst d; reflexivity. Qed.
Lemma join_own d n : fold_left join (repeat d n) d = d.
Proof. induction n as [|n IH]; [reflexivity|]. cbn. replace (join d d) with d by (destruct d; reflexivity). exact IH. Qed.
Lemma kinds d (l : list (num F)) : Forall (fun x => kind x = d) l -> map kind l = repeat d (List.length l).
Proof. induction 1 as [|x l Hx Hl IH]; [reflexivity|]. cbn. rewrite Hx, IH. reflexivity. Qed.

Lemma rows_concat n m (l : list (num F)) : List.length l = n * m -> concat (rows F n m l) = l.
Proof.
  revert l. induction n as [|n IH]; intros l H; cbn.
  - destruct l; [reflexivity|discriminate].
  - rewrite IH by (rewrite skipn_length; lia). apply firstn_skipn.
Qed.
Lemma rows_length n m (l : list (num F)) : List.length (rows F n m l) = n.
Proof. revert l. induction n as [|n IH]; intros l; cbn; [reflexivity|]. f_equal. apply IH. Qed.
Lemma rows_each n m (l : list (num F)) d : List.length l = n * m -> Forall (fun x => kind x = d) l ->
  Forall (fun r => List.length r = m /\ Forall (fun x => kind x = d) r) (rows F n m l).
Proof.
  revert l. induction n as [|n IH]; intros l H Hd; cbn; constructor.
  - split; [rewrite firstn_length; lia|]. rewrite <- (firstn_skipn m l) in Hd. apply Forall_app in Hd as [Hd _]. exact Hd.
  - apply IH; [rewrite skipn_length; lia|]. rewrite <- (firstn_skipn m l) in Hd. apply Forall_app in Hd as [_ Hd]. exact Hd.
Qed.

Lemma some_round shape : forall c flat d, shape <> [] -> fold_right Nat.mul 1 shape <> 0 ->
  List.length flat = fold_right Nat.mul 1 shape -> Forall (fun x => kind x = d) flat ->
  de_arr F flt c (ser_arr F flt shape flat) = Ok (mkArr c d shape flat).
Proof.
  induction shape as [|n rest IH]; intros c flat d Hne Hp Hl Hd; [congruence|].
  cbn [ser_arr]. destruct (Nat.eqb_spec (prod (n :: rest)) 0) as [X|_]; [contradiction|].
  destruct rest as [|m rest].
  - cbn [de_arr]. unfold as_flat, view. cbn [a_dtype a_shape a_flat].
    assert (Ed : match flat with [] => DFloat | x :: r => fold_left join (map kind r) (kind x) end = d).
    { destruct flat as [|x r]; [cbn in Hl, Hp; lia|]. inversion Hd as [|? ? Hx Hr]; subst. rewrite (kinds (kind x) r Hr). apply join_own. }
    rewrite Ed, cast_own by assumption. f_equal. f_equal. cbn in Hl. rewrite Hl. f_equal. lia.
  - set (sub := m :: rest) in *. cbn [fold_right] in Hl, Hp.
    assert (Hps : fold_right Nat.mul 1 sub <> 0) by (intros X; rewrite X in Hp; lia).
    cbn [de_arr]. set (rs := rows F n (prod sub) flat).
    assert (Hseq : sequence F (map (de_arr F flt Sarray) (map (ser_arr F flt sub) rs)) = Ok (map (fun r => mkArr Sarray d sub r) rs)).
    { pose proof (rows_each n (prod sub) flat d Hl Hd) as He. fold rs in He. clearbody rs. induction He as [|r rs [H1 H2] He IHr]; [reflexivity|].
      cbn [map sequence]. rewrite (IH Sarray r d) by (assumption || discriminate). cbn [bind]. rewrite IHr. reflexivity. }
    rewrite Hseq. cbn [bind].
    assert (Hlen : List.length rs = n) by apply rows_length.
    assert (Hcat : concat rs = flat) by (apply rows_concat; exact Hl).
    destruct rs as [|r0 rs']; [cbn in Hlen; subst n; cbn in Hp; lia|].
    cbn [map as_rows a_shape].
    assert (Hall : forallb (fun y => if list_eq_dec Nat.eq_dec (a_shape y) sub then true else false) (map (fun r => mkArr Sarray d sub r) rs') = true).
    { apply forallb_forall. intros y Hy. apply in_map_iff in Hy as (r & <- & _). cbn [a_shape]. destruct (list_eq_dec Nat.eq_dec sub sub); [reflexivity|congruence]. }
    rewrite Hall. cbn [bind a_dtype]. unfold view. cbn [a_dtype a_shape a_flat].
    assert (Hd2 : fold_left join (map (@a_dtype F) (map (fun r => mkArr Sarray d sub r) rs')) d = d).
    { rewrite map_map. cbn. replace (map (fun _ => d) rs') with (repeat d (List.length rs')); [apply join_own|]. clear. induction rs'; cbn; congruence. }
    rewrite Hd2. f_equal. f_equal.
    + cbn [List.length]. rewrite map_length. cbn in Hlen. rewrite Hlen. reflexivity.
    + replace (map (@a_flat F) (map (fun r => mkArr Sarray d sub r) rs')) with rs' by (rewrite map_map; cbn; symmetry; apply map_id).
      cbn [concat] in Hcat |- *. rewrite Hcat. apply cast_own. exact Hd.
Qed.
Lemma ser_empty shape flat : shape <> [] -> fold_right Nat.mul 1 shape = 0 -> ser_arr F flt shape flat = TShape F shape.
Proof. destruct shape as [|n rest]; [congruence|]. intros _ H. cbn [ser_arr]. replace (prod (n :: rest)) with 0 by (symmetry; exact H). reflexivity. Qed.
End Round.

(** ** C57 *)
(** A non-empty array of one or more dimensions comes back with its class, type, shape and entries. *)
Theorem C57_array_round_trip : forall F flt (a : arr F), array_ok a -> a_shape a <> [] -> ~ In 0 (a_shape a) ->
  array_deserialize F flt (a_cls a) (array_serialize F flt a) = Ok a.
Proof.
  intros F flt a [Hl Hd] Hne H0. unfold array_deserialize, array_serialize.
  assert (Hp : fold_right Nat.mul 1 (a_shape a) <> 0).
  { clear Hl Hd Hne. induction (a_shape a) as [|n l IH]; [cbn; lia|]. cbn. intros X. apply Nat.eq_mul_0 in X as [X|X].
    - apply H0. left. congruence. - apply IH; [|exact X]. intros Y. apply H0. right. exact Y. }
  destruct a as [c d sh fl]. cbn in *. rewrite (some_round F flt sh Sarray fl d) by assumption. destruct c; reflexivity.
Qed.
(** An empty array keeps its shape; its entries are of type float and an [sarray] becomes a plain array. *)
Theorem C57_empty_array : forall F flt (a : arr F), array_ok a -> In 0 (a_shape a) ->
  array_deserialize F flt (a_cls a) (array_serialize F flt a) =
  Ok (mkArr (match a_cls a with Carray => Carray | _ => Ndarray end) DFloat (a_shape a) (a_flat a)).
Proof.
  intros F flt a [Hl Hd] H0. unfold array_deserialize, array_serialize.
  assert (Hp : fold_right Nat.mul 1 (a_shape a) = 0).
  { clear Hl Hd. induction (a_shape a) as [|n l IH]; [destruct H0|]. cbn. destruct H0 as [->|H0]; [reflexivity|]. rewrite IH by exact H0. lia. }
  rewrite ser_empty; [|intros X; rewrite X in H0; destruct H0|exact Hp]. rewrite Hp in Hl.
  destruct a as [c d sh fl]. cbn in *. destruct fl; [|discriminate]. unfold zeros. replace (prod sh) with 0 by (symmetry; exact Hp).
  destruct c; reflexivity.
Qed.
(** An array without dimensions comes back as the float of its entry. *)
Theorem C57_scalar_array : forall F flt (a : arr F) x, a_shape a = [] -> a_flat a = [x] ->
  array_deserialize F flt (a_cls a) (array_serialize F flt a) =
  Ok (mkArr (a_cls a) DFloat [] [NF (match x with NF f => f | NI z => flt z | NB b => flt (Z.b2z b) end)]).
Proof. intros F flt [c d sh fl] x E1 E2. cbn in E1, E2. subst. destruct c, x; reflexivity. Qed.
(** Any text that lists numbers, whoever wrote it: the array has one dimension and the narrowest type that all the
    numbers fit in (integers if there is one and no float), and every entry is the number at its place, in that type. *)
Definition number_in {F} (flt : Z -> F) (d : dtype) (x : num F) : num F :=
  match d, x with
  | DFloat, NI z => NF (flt z)
  | DFloat, NB b => NF (flt (if b then 1 else 0)%Z)
  | DInt, NB b => NI (if b then 1 else 0)%Z
  | _, _ => x
  end.
Theorem C57_any_list_of_numbers : forall F flt c (l : list (num F)), l <> [] ->
  exists d, array_deserialize F flt c (TList F l) = Ok (mkArr c d [List.length l] (map (number_in flt d) l)) /\
    (d = DFloat <-> exists f, In (NF f) l) /\ (d = DBool <-> forall x, In x l -> exists b, x = NB b).
Proof.
  intros F flt c l Hne.
  assert (Hk : forall r k, let d := fold_left join (map kind r) k in
    (d = DFloat <-> k = DFloat \/ exists f, In (NF f : num F) r) /\ (d = DBool <-> k = DBool /\ forall x, In x r -> exists b, x = NB b)).
  { induction r as [|x r IH]; intros k.
    - cbn. split; [split; [auto|intros [?|[? []]]; assumption]|]. split; [intros ->; split; [reflexivity|intros ? []]|tauto].
    - cbn [map fold_left]. specialize (IH (join k (kind x))) as [I1 I2]. cbn zeta. rewrite I1, I2. clear I1 I2. split; split.
      + intros [H|[f Hf]]; [|right; exists f; right; exact Hf]. destruct k; cbn in H; destruct x; try discriminate; try (left; reflexivity); right; eexists; left; reflexivity.
      + intros [->|[f [->|Hf]]]; [left; reflexivity|left; destruct k; reflexivity|right; eauto].
      + intros [H1 H2]. destruct k, x; try discriminate. split; [reflexivity|]. intros y [<-|Hy]; [eauto|apply H2; exact Hy].
      + intros [-> H]. split; [|intros y Hy; apply H; right; exact Hy]. destruct (H x (or_introl eq_refl)) as [b ->]. reflexivity. }
  destruct l as [|x r]; [congruence|]. exists (fold_left join (map kind r) (kind x)).
  destruct (Hk r (kind x)) as [K1 K2]. split; [|split].
  - assert (Hc : forall d y, (d = DFloat \/ d = DInt /\ (forall f, y <> NF f) \/ d = DBool) -> cast F flt d y = number_in flt d y).
    { intros d y Hd. destruct d, y as [[]| |]; try reflexivity. destruct Hd as [Hd|[[_ Hd]|Hd]]; try discriminate. exfalso. eapply Hd. reflexivity. }
    set (d := fold_left join (map kind r) (kind x)) in *.
    assert (Hm : map (cast F flt d) (x :: r) = map (number_in flt d) (x :: r)).
    { apply map_ext_in. intros y Hy. apply Hc. destruct d eqn:Ed; [auto| |auto]. right. left. split; [reflexivity|]. intros f ->.
      assert (Hx : DInt = DFloat); [|discriminate]. apply K1. destruct Hy as [->|Hy]; [left; reflexivity|right; eauto]. }
    assert (He : de_arr F flt Sarray (TList F (x :: r)) = Ok (mkArr Sarray d [List.length (x :: r)] (map (cast F flt d) (x :: r)))) by reflexivity.
    unfold array_deserialize. rewrite He, Hm. destruct c; reflexivity.
  - rewrite K1. split.
    + intros [H|[f Hf]]; [destruct x; try discriminate; eexists; left; reflexivity|exists f; right; exact Hf].
    + intros [f [->|Hf]]; [left; reflexivity|right; eauto].
  - rewrite K2. split.
    + intros [H1 H2] y [<-|Hy]; [destruct x; try discriminate; eauto|apply H2; exact Hy].
    + intros H. split; [destruct (H x (or_introl eq_refl)) as [b ->]; reflexivity|]. intros y Hy. apply H. right. exact Hy.
Qed.
(** Any text that gives a shape: zeros, as floats. *)
Theorem C57_any_shape : forall F flt c sh, exists c',
  array_deserialize F flt c (TShape F sh) = Ok (mkArr c' DFloat sh (repeat (NF (flt 0%Z)) (fold_right Nat.mul 1 sh))).
Proof. intros F flt c sh. destruct c; eexists; reflexivity. Qed.

Example C57_example :
  let a := mkArr (F := Z) Sarray DInt [2; 3] [NI 1; NI 2; NI 3; NI 4; NI 5; NI 6] in
  let e := mkArr (F := Z) Sarray DInt [2; 0; 3] [] in
  let z := mkArr (F := Z) Sarray DInt [] [NI 7] in
  array_ok a /\ array_ok e /\ array_ok z /\
  array_serialize Z id a = TRows Z [TList Z [NI 1; NI 2; NI 3]; TList Z [NI 4; NI 5; NI 6]] /\
  array_deserialize Z id Sarray (array_serialize Z id a) = Ok a /\
  array_deserialize Z id Sarray (array_serialize Z id e) = Ok (mkArr Ndarray DFloat [2; 0; 3] []) /\
  array_deserialize Z id Sarray (array_serialize Z id z) = Ok (mkArr Sarray DFloat [] [NF 7%Z]).
Proof. repeat split; try reflexivity; repeat constructor. Qed.
Example C57_mixed_example :
  array_deserialize Z id Sarray (TList Z [NB true; NI 5; NB false]) = Ok (mkArr Sarray DInt [3] [NI 1; NI 5; NI 0]) /\
  array_deserialize Z id Carray (TList Z [NB true; NI 5; NF 7%Z]) = Ok (mkArr Carray DFloat [3] [NF 1%Z; NF 5%Z; NF 7%Z]).
Proof. split; reflexivity. Qed.

Print Assumptions C57_array_round_trip.
Print Assumptions C57_empty_array.
Print Assumptions C57_scalar_array.
Print Assumptions C57_any_list_of_numbers.
Print Assumptions C57_any_shape.
