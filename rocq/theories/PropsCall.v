(** C99: which methods of the user are run, with what, and which never are. *)
From Coq Require Import List Bool Arith Lia.
From Verif Require Import Base CallModel.
Import ListNotations.

(** Spec, not using [bind_args]: an ordinary method has positional parameters only. *)
Definition plain (g : signature) : Prop := g_var g = false /\ g_kwonly g = [] /\ g_varkw g = false.
Definition others (g : signature) : nat := length (g_kwonly g) + (if g_varkw g then 1 else 0).
(** What is passed as the context. *)
Definition ctx_of (context : option nat) : arg := match context with Some c => Context c | None => NewContext end.
(** Python accepts a call with [n] positional arguments: they fit and nothing without a default is left out. *)
Definition accepts (g : signature) (n : nat) : Prop :=
  (n <= length (g_pos g) \/ g_var g = true)
  /\ (forall i, n <= i -> i < length (g_pos g) -> nth i (g_pos g) false = true)
  /\ (forall d, In d (g_kwonly g) -> d = true).

Lemma bind_pos_all : forall ps args, length args = length ps -> bind_pos ps args = Some (map Passed args, []).
Proof.
  induction ps as [|d ps IH]; intros [|a args] L; cbn in *; try discriminate; [reflexivity|].
  rewrite IH by lia. reflexivity.
Qed.
Lemma bind_pos_more : forall ps args, length ps <= length args ->
  bind_pos ps args = Some (map Passed (firstn (length ps) args), skipn (length ps) args).
Proof.
  induction ps as [|d ps IH]; intros args L; cbn in *; [reflexivity|].
  destruct args as [|a args]; cbn in *; [lia|]. rewrite IH by lia. reflexivity.
Qed.
Lemma bind_pos_nil : forall ps, (exists r, bind_pos ps [] = Some r) <-> (forall i, i < length ps -> nth i ps false = true).
Proof.
  induction ps as [|d ps IH]; cbn; [split; [intros _ i Hi; lia | intros _; eexists; reflexivity]|].
  split.
  - intros [r E]. destruct d; [|discriminate]. destruct (bind_pos ps []) as [[b q]|] eqn:Eb; [|discriminate].
    intros [|i] Hi; [reflexivity|]. apply (proj1 IH); [exists (b, q); reflexivity | lia].
  - intros H. assert (Hd : d = true) by exact (H 0 (Nat.lt_0_succ _)). subst d.
    destruct (proj2 IH) as [[b q] E]; [intros i Hi; apply (H (S i)); lia|]. rewrite E. eexists; reflexivity.
Qed.
Lemma bind_pos_iff : forall ps args, (exists r, bind_pos ps args = Some r)
  <-> (forall i, length args <= i -> i < length ps -> nth i ps false = true).
Proof.
  induction ps as [|d ps IH]; intros args.
  - split; [intros _ i _ Hi; cbn in Hi; lia | intros _; cbn; eexists; reflexivity].
  - destruct args as [|a args].
    + rewrite bind_pos_nil. split; intros H i; [intros _ | intros Hi]; [apply H | apply H; [apply Nat.le_0_l | exact Hi]].
    + cbn. specialize (IH args). split.
      * intros [r E] [|i] L Hi; [lia|]. destruct (bind_pos ps args) as [x|] eqn:Eb; [|discriminate].
        apply (proj1 IH); [eexists; reflexivity | lia | lia].
      * intros H. destruct (proj2 IH) as [[b q] E]; [intros i L Hi; apply (H (S i)); lia|].
        rewrite E. eexists; reflexivity.
Qed.
Lemma bind_pos_rest : forall ps args b r, bind_pos ps args = Some (b, r) -> r = skipn (length ps) args.
Proof.
  induction ps as [|d ps IH]; intros args b r E; cbn in E; [inversion E; reflexivity|].
  destruct args as [|a args]; cbn.
  - destruct d; [|discriminate]. destruct (bind_pos ps []) as [[b' r']|] eqn:Eb; [|discriminate].
    inversion E; subst. rewrite (IH _ _ _ Eb). destruct ps; reflexivity.
  - destruct (bind_pos ps args) as [[b' r']|] eqn:Eb; [|discriminate]. inversion E; subst. exact (IH _ _ _ Eb).
Qed.
Lemma bind_args_iff : forall g args, (exists f, bind_args g args = Some f) <-> accepts g (length args).
Proof.
  intros g args. unfold bind_args, accepts.
  pose proof (bind_pos_iff (g_pos g) args) as HB.
  destruct (bind_pos (g_pos g) args) as [[b r]|] eqn:Eb.
  - pose proof (bind_pos_rest _ _ _ _ Eb) as Hr.
    assert (Hk : forallb (fun d : bool => d) (g_kwonly g) = true <-> (forall d, In d (g_kwonly g) -> d = true))
      by apply forallb_forall.
    assert (Hv : (g_var g || match r with [] => true | _ => false end) = true
                 <-> (length args <= length (g_pos g) \/ g_var g = true)).
    { pose proof (skipn_length (length (g_pos g)) args) as HL. rewrite <- Hr in HL.
      destruct (g_var g); cbn; [tauto|]. destruct r as [|x r]; cbn in HL; split; intros H; try lia; try discriminate.
    }
    split.
    + intros [f E].
      destruct (forallb (fun d : bool => d) (g_kwonly g) && (g_var g || match r with [] => true | _ => false end)) eqn:C;
        [|discriminate].
      apply andb_prop in C as [C1 C2]. split; [exact (proj1 Hv C2)|]. split; [|exact (proj1 Hk C1)].
      apply (proj1 HB). eexists; reflexivity.
    + intros (A & _ & K). rewrite (proj2 Hk K), (proj2 Hv A). cbn. eexists; reflexivity.
  - split; [intros [f E]; discriminate|]. intros (_ & B & _). destruct (proj2 HB B) as [x E]. discriminate.
Qed.

(** For a method whose parameters are all positional: with as many as there are arguments it is run with the arguments,
    with one more it is run with the context as the last one, whether or not the parameters have defaults. *)
Theorem C99_plain_method : forall g body args context mark, plain g ->
  (length (g_pos g) = length args ->
   r_ran (call (Method g body) args context mark) = Some (mkFrame (map Passed args) []))
  /\ (length (g_pos g) = length args + 1 ->
      r_ran (call (Method g body) args context mark) = Some (mkFrame (map Passed args ++ [Passed (ctx_of context)]) []))
  /\ (length (g_pos g) <> length args -> length (g_pos g) <> length args + 1 ->
      call (Method g body) args context mark = mkReport None (if mark then Marker TypeError else Raised TypeError)).
Proof.
  intros [ps v k w] body args context mark (Hv & Hk & Hw). cbn in Hv, Hk, Hw. subst. cbn [g_pos].
  unfold call, n_params. cbn [g_pos g_var g_kwonly g_varkw length]. rewrite !Nat.add_0_r.
  split; [|split].
  - intros L. rewrite (proj2 (Nat.eqb_eq _ _) L). unfold bind_args. cbn [g_pos g_kwonly g_var].
    rewrite bind_pos_all by (symmetry; exact L). reflexivity.
  - intros L. rewrite (proj2 (Nat.eqb_neq _ _)) by lia. rewrite (proj2 (Nat.eqb_eq _ _) L).
    unfold bind_args. cbn [g_pos g_kwonly g_var].
    rewrite bind_pos_all by (rewrite app_length; cbn; lia). cbn. rewrite map_app. reflexivity.
  - intros N1 N2. rewrite !(proj2 (Nat.eqb_neq _ _)) by assumption. destruct mark; reflexivity.
Qed.
(** Methods that write: one that takes a path, one that takes a context as well, and one with an option that is meant to
    stay at its default but is given the context. *)
Example C99_plain_ex : forall body,
  r_ran (call (Method (mkSig [false] false [] false) body) [Arg 0] (Some 7) false) = Some (mkFrame [Passed (Arg 0)] [])
  /\ r_ran (call (Method (mkSig [false; true] false [] false) body) [Arg 0] (Some 7) false)
     = Some (mkFrame [Passed (Arg 0); Passed (Context 7)] [])
  /\ call (Method (mkSig [false; true; true] false [] false) body) [Arg 0] (Some 7) false = mkReport None (Raised TypeError).
Proof. intros body. repeat split. Qed.

(** Which methods are run at all. *)
Theorem C99_run_iff : forall g body args context mark,
  r_ran (call (Method g body) args context mark) <> None
  <-> (plain g /\ (length (g_pos g) = length args \/ length (g_pos g) = length args + 1))
      \/ (g_var g = true /\ (forall d, In d (g_kwonly g) -> d = true)
          /\ (length (g_pos g) + 1 + others g = length args \/ length (g_pos g) + others g = length args)).
Proof.
  intros g body args context mark.
  assert (R : r_ran (call (Method g body) args context mark) <> None
              <-> (n_params g = length args /\ accepts g (length args))
                  \/ (n_params g = length args + 1 /\ accepts g (length args + 1))).
  { unfold call. fold (ctx_of context).
    assert (G : forall l, r_ran (match bind_args g l with
                  | Some f => mkReport (Some f) (match body f with Ok n => Value n | Exn e => handled mark e end)
                  | None => mkReport None (handled mark TypeError) end) <> None <-> accepts g (length l)).
    { intros l. rewrite <- (bind_args_iff g l). destruct (bind_args g l) as [f|]; cbn; split; intros H.
      - eexists; reflexivity.
      - discriminate.
      - congruence.
      - destruct H; discriminate. }
    destruct (Nat.eqb_spec (n_params g) (length args)) as [E|E].
    - rewrite G. split; [intros A; left; split; assumption | intros [[_ A]|[E2 _]]; [exact A | lia]].
    - destruct (Nat.eqb_spec (n_params g) (length args + 1)) as [E2|E2].
      + rewrite G, app_length. cbn [length].
        split; [intros A; right; split; assumption | intros [[E3 _]|[_ A]]; [lia | exact A]].
      + cbn. split; [congruence | intros [[E3 _]|[E3 _]]; lia]. }
  rewrite R. clear R. unfold n_params, accepts, plain, others. destruct g as [ps v k w]. cbn [g_pos g_var g_kwonly g_varkw].
  split.
  - intros H.
    assert (HH : exists m, (m = length args \/ m = length args + 1)
      /\ length ps + (if v then 1 else 0) + length k + (if w then 1 else 0) = m
      /\ (m <= length ps \/ v = true) /\ (forall d, In d k -> d = true)).
    { destruct H as [(E & A & _ & K)|(E & A & _ & K)]; eexists; (split; [|split; [exact E | split; assumption]]); auto. }
    destruct HH as (m & Hm & E & A & K). destruct v.
    + right. split; [reflexivity|]. split; [exact K|]. lia.
    + left. destruct A as [A|A]; [|discriminate]. destruct w; [lia|]. destruct k as [|x k]; cbn in E; [|lia].
      split; [repeat split | lia].
  - intros [[(-> & -> & ->) E]|(-> & K & E)]; cbn [length].
    + destruct E as [E|E]; [left | right]; rewrite !Nat.add_0_r; (split; [exact E|]);
        (split; [left; lia|]); (split; [intros i H1 H2; lia | intros d []]).
    + destruct E as [E|E]; [left | right]; (split; [lia|]);
        (split; [right; reflexivity|]); (split; [intros i H1 H2; lia | exact K]).
Qed.
Example C99_run_ex : forall body,
  r_ran (call (Method (mkSig [false] true [] false) body) [Arg 0] None false) = Some (mkFrame [Passed (Arg 0)] [NewContext])
  /\ r_ran (call (Method (mkSig [] true [] false) body) [Arg 0] None false) = Some (mkFrame [] [Arg 0]).
Proof. intros body. split; reflexivity. Qed.

(** So a method without [*args] that has a keyword-only parameter or [**kwargs] is never run, though Python would accept
    the call with the arguments alone; likewise one with two or more optional parameters. *)
Theorem C99_never_run : forall g body args context mark,
  g_var g = false -> (0 < others g \/ length args + 2 <= length (g_pos g)) ->
  call (Method g body) args context mark = mkReport None (if mark then Marker TypeError else Raised TypeError).
Proof.
  intros g body args context mark Hv H.
  assert (N : r_ran (call (Method g body) args context mark) = None).
  { destruct (r_ran (call (Method g body) args context mark)) as [f|] eqn:E; [|reflexivity]. exfalso.
    assert (NE : r_ran (call (Method g body) args context mark) <> None) by (rewrite E; discriminate).
    destruct (proj1 (C99_run_iff _ _ _ _ _) NE) as [[(_ & Hk & Hw) L]|[V _]]; [|congruence].
    unfold others in H. rewrite Hk, Hw in H. cbn in H. lia. }
  revert N. unfold call.
  destruct (n_params g =? length args); [|destruct (n_params g =? length args + 1)];
    try (destruct (bind_args g _) as [f|]; [discriminate|]); intros _; destruct mark; reflexivity.
Qed.
Example C99_never_ex : forall body,
  accepts (mkSig [false] false [] true) 1
  /\ call (Method (mkSig [false] false [] true) body) [Arg 0] None true = mkReport None (Marker TypeError)
  /\ accepts (mkSig [false] false [true] false) 1
  /\ call (Method (mkSig [false] false [true] false) body) [Arg 0] None false = mkReport None (Raised TypeError).
Proof.
  intros body. split; [|split; [reflexivity | split; [|reflexivity]]].
  - split; [left; apply le_n|]. split; [cbn; intros i; lia | intros d []].
  - split; [left; apply le_n|]. split; [cbn; intros i; lia | intros d [<-|[]]; reflexivity].
Qed.

(** A method is given all the arguments, in order, and at most the context after them: nothing is left out or repeated. *)
Definition received (f : frame) : list arg :=
  flat_map (fun b => match b with Passed a => [a] | Default => [] end) (f_pos f) ++ f_rest f.
Lemma bind_pos_received : forall ps args b r, bind_pos ps args = Some (b, r) ->
  flat_map (fun b => match b with Passed a => [a] | Default => [] end) b ++ r = args.
Proof.
  induction ps as [|d ps IH]; intros args b r E; cbn in E; [inversion E; reflexivity|].
  destruct args as [|a args].
  - destruct d; [|discriminate]. destruct (bind_pos ps []) as [[b' r']|] eqn:Eb; [|discriminate].
    inversion E; subst. cbn. exact (IH _ _ _ Eb).
  - destruct (bind_pos ps args) as [[b' r']|] eqn:Eb; [|discriminate]. inversion E; subst. cbn. f_equal. exact (IH _ _ _ Eb).
Qed.
Theorem C99_received : forall g body args context mark f,
  r_ran (call (Method g body) args context mark) = Some f ->
  (received f = args \/ received f = args ++ [ctx_of context]) /\ ~ In Default (f_pos f).
Proof.
  intros g body args context mark f E.
  assert (HL : exists l, (l = args \/ l = args ++ [ctx_of context]) /\ n_params g = length l /\ bind_args g l = Some f).
  { revert E. unfold call. fold (ctx_of context).
    destruct (Nat.eqb_spec (n_params g) (length args)) as [En|En];
      [|destruct (Nat.eqb_spec (n_params g) (length args + 1)) as [En2|En2]].
    - destruct (bind_args g args) as [f'|] eqn:Eb; [|discriminate]. cbn. intros E. inversion E; subst f'.
      exists args. auto.
    - destruct (bind_args g (args ++ [ctx_of context])) as [f'|] eqn:Eb; [|discriminate]. cbn. intros E.
      inversion E; subst f'. exists (args ++ [ctx_of context]). rewrite app_length. cbn [length]. auto.
    - discriminate. }
  destruct HL as (l & Hl & En & Eb). unfold bind_args in Eb.
  destruct (bind_pos (g_pos g) l) as [[b r]|] eqn:Ep; [|discriminate].
  destruct (_ && _) in Eb; [|discriminate]. inversion Eb; subst f. cbn [f_pos]. split.
  - unfold received. cbn [f_pos f_rest]. rewrite (bind_pos_received _ _ _ _ Ep). exact Hl.
  - rewrite bind_pos_more in Ep by (unfold n_params in En; lia). inversion Ep; subst.
    intros HI. apply in_map_iff in HI as [x [Hx _]]. discriminate.
Qed.
Example C99_received_ex : forall body,
  exists f, r_ran (call (Method (mkSig [true] true [true] false) body) [Arg 0; Arg 1] (Some 3) false) = Some f
  /\ received f = [Arg 0; Arg 1; Context 3].
Proof. intros body. exists (mkFrame [Passed (Arg 0)] [Arg 1; Context 3]). split; reflexivity. Qed.

(** What comes out when the method ran, and when there is no signature to look at. *)
Theorem C99_outcome : forall g body args context mark f,
  r_ran (call (Method g body) args context mark) = Some f ->
  r_out (call (Method g body) args context mark)
  = match body f with
    | Ok n => Value n
    | Exn SerializationError => Raised SerializationError
    | Exn ValidationError => Raised ValidationError
    | Exn KeyboardInterrupt => Raised KeyboardInterrupt
    | Exn e => if mark then Marker e else Raised e
    end.
Proof.
  intros g body args context mark f. unfold call.
  destruct (n_params g =? length args); [|destruct (n_params g =? length args + 1)]; try discriminate;
    (destruct (bind_args g _) as [f'|]; [|discriminate]); cbn; intros E; inversion E; subst f';
    destruct (body f) as [n|e]; try reflexivity; destruct e; reflexivity.
Qed.
Theorem C99_not_run : forall m args context mark,
  r_ran (call m args context mark) = None ->
  exists e, r_out (call m args context mark) = Marker e \/ r_out (call m args context mark) = Raised e.
Proof.
  intros m args context mark.
  assert (H : forall e, exists e', handled mark e = Marker e' \/ handled mark e = Raised e').
  { intros e. unfold handled. exists e. destruct (passes e); [right; reflexivity|]. destruct mark; auto. }
  destruct m as [g body|e]; unfold call; [|intros _; apply H].
  destruct (n_params g =? length args); [|destruct (n_params g =? length args + 1)];
    try (destruct (bind_args g _); [discriminate|]); intros _; apply H.
Qed.
Example C99_outcome_ex :
  r_out (call (Method (mkSig [false] false [] false) (fun f => Exn KeyError)) [Arg 0] None true) = Marker KeyError
  /\ r_out (call (Method (mkSig [false] false [] false) (fun f => Exn ValidationError)) [Arg 0] None true) = Raised ValidationError
  /\ r_out (call (NoSignature TypeError) [Arg 0] None true) = Marker TypeError.
Proof. repeat split. Qed.

Print Assumptions C99_plain_method.
Print Assumptions C99_run_iff.
Print Assumptions C99_never_run.
Print Assumptions C99_received.
Print Assumptions C99_outcome.
Print Assumptions C99_not_run.
