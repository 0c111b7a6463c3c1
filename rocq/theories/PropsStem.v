(** Property C95: runs made by the factories with their default stems. *)
From Coq Require Import Ascii String List Bool Arith NArith Lia.
From Verif Require Import Base PosixModel PathModel StemModel.
Import ListNotations.

(** * The specification *)
Definition suffix_of (default : str) (ext : option str) : str := match ext with Some e => e | None => default end.
(** [kept stem sub ss k l r]: the items [l] are kept as [r] when [k] storables came before: plain items inline, the [k]-th
    storable as a file [stem-k/stem] or [stem-k] in the sub directory. *)
Inductive kept (stem sub : str) (ss : bool) : N -> list item -> list stored -> Prop :=
| kp_nil k : kept stem sub ss k [] []
| kp_plain k n l r : kept stem sub ss k l r -> kept stem sub ss k (INone n :: l) (SInline n :: r)
| kp_file k u1 u2 d e l r : kept stem sub ss (k + 1)%N l r ->
    kept stem sub ss k (IStorable u1 u2 d e :: l)
      (SFile (let key := stem ++ $"-" ++ str_of_N k in
              if ss then join2 (join2 sub key) (stem ++ suffix_of d e) else join2 sub (key ++ suffix_of d e)) :: r).
(** Nothing of the storables is left but a marker of an internal error. *)
Inductive lost : list item -> list stored -> Prop :=
| lo_nil : lost [] []
| lo_plain n l r : lost l r -> lost (INone n :: l) (SInline n :: r)
| lo_marker u1 u2 d e l r : lost l r -> lost (IStorable u1 u2 d e :: l) (SMarker UnboundLocalError :: r).

Definition file_of (stem sub : str) (ss : bool) (k : N) (d : str) (e : option str) : str :=
  let key := stem ++ $"-" ++ str_of_N k in if ss then join2 (join2 sub key) (stem ++ suffix_of d e) else join2 sub (key ++ suffix_of d e).
Lemma write_named stem k sub ss u1 u2 d e : ctx_write (record_target (run_target (Some stem) k sub ss) u1 u2 d e) = Ok (file_of stem sub ss k d e).
Proof. destruct ss, e; reflexivity. Qed.
Lemma write_none_sub k sub u1 u2 d e : ctx_write (record_target (run_target None k sub true) u1 u2 d e) = Exn UnboundLocalError.
Proof. destruct e; reflexivity. Qed.
Lemma write_none_flat k sub u1 u2 d e : ctx_write (record_target (run_target None k sub false) u1 u2 d e) = Ok (file_of ($"None") sub false k d e).
Proof. destruct e; reflexivity. Qed.

Lemma save_kept validate stem sub ss (Hw : forall k u1 u2 d e, ctx_write (record_target (run_target stem k sub ss) u1 u2 d e) = Ok (file_of (py_text stem) sub ss k d e)) l :
  forall k r, save_items validate (fst (append_items stem k sub ss l)) = Ok r <-> kept (py_text stem) sub ss k l r.
Proof.
  induction l as [|[n|u1 u2 d e] l IH]; intros k r; cbn [append_items].
  - split; [intros H; inversion H; constructor|intros H; inversion H; reflexivity].
  - specialize (IH k). destruct (append_items stem k sub ss l) as [x c]. cbn [fst save_items save_item bind] in *. split.
    + destruct (save_items validate x) as [y|]; cbn [bind]; [|discriminate]. intros H. inversion H; subst. constructor. apply IH. reflexivity.
    + intros H. inversion H; subst. match goal with G : kept _ _ _ _ _ _ |- _ => apply IH in G; rewrite G end. reflexivity.
  - specialize (IH (k + 1)%N). destruct (append_items stem (k + 1) sub ss l) as [x c]. cbn [fst save_items save_item] in *. rewrite Hw. cbn [bind]. split.
    + destruct (save_items validate x) as [y|]; cbn [bind]; [|discriminate]. intros H. inversion H; subst. apply kp_file. apply IH. reflexivity.
    + intros H. inversion H; subst. match goal with G : kept _ _ _ _ _ _ |- _ => apply IH in G; rewrite G end. reflexivity.
Qed.
Lemma kept_total stem sub ss l : forall k, exists r, kept stem sub ss k l r.
Proof.
  induction l as [|[n|u1 u2 d e] l IH]; intros k; [eexists; constructor| |].
  - destruct (IH k) as [r H]. eexists. constructor. exact H.
  - destruct (IH (k + 1)%N) as [r H]. eexists. apply kp_file. exact H.
Qed.

(** * The theorems *)
(** With a stem, such as the one of [mruns_factory], every storable gets its file, with or without validation. *)
Theorem C95_with_a_stem : forall validate stem sub ss l, exists r, save_runs validate (Some stem) sub ss l = Ok r /\ kept stem sub ss 0%N l r.
Proof.
  intros validate stem sub ss l. destruct (kept_total stem sub ss l 0%N) as [r H]. exists r. split; [|exact H].
  unfold save_runs. apply (save_kept validate (Some stem) sub ss (fun k u1 u2 d e => write_named stem k sub ss u1 u2 d e)). exact H.
Qed.
Print Assumptions C95_with_a_stem.

(** With the defaults of [smruns_factory] no storable is ever written: without validation each is replaced by the marker of
    an UnboundLocalError, with validation saving fails as soon as there is one. *)
Theorem C95_smruns_factory_loses : forall sub l,
  (exists r, save_runs false smruns_factory_stem sub true l = Ok r /\ lost l r) /\
  (save_runs true smruns_factory_stem sub true l = Exn ValidationError <-> exists u1 u2 d e, In (IStorable u1 u2 d e) l).
Proof.
  intros sub l. unfold save_runs, smruns_factory_stem. generalize 0%N. split.
  - revert n. induction l as [|[m|u1 u2 d e] l IH]; intros n; cbn [append_items].
    + exists []. split; [reflexivity|constructor].
    + destruct (IH n) as (r & H1 & H2). destruct (append_items None n sub true l) as [x c]. cbn [fst] in *.
      exists (SInline m :: r). split; [|constructor; exact H2]. cbn [save_items save_item bind]. rewrite H1. reflexivity.
    + destruct (IH (n + 1)%N) as (r & H1 & H2). destruct (append_items None (n + 1) sub true l) as [x c]. cbn [fst] in *.
      exists (SMarker UnboundLocalError :: r). split; [|constructor; exact H2]. cbn [save_items save_item]. rewrite write_none_sub. cbn [bind]. rewrite H1. reflexivity.
  - revert n. induction l as [|[m|u1 u2 d e] l IH]; intros n; cbn [append_items].
    + split; [discriminate|]. intros (u1 & u2 & d & e & []).
    + specialize (IH n). destruct (append_items None n sub true l) as [x c]. cbn [fst save_items save_item bind] in *. split.
      * intros H. assert (G : save_items true x = Exn ValidationError). { destruct (save_items true x); cbn [bind] in H; [discriminate|exact H]. }
        apply IH in G as (u1 & u2 & d & e & G). exists u1, u2, d, e. right. exact G.
      * intros (u1 & u2 & d & e & [G|G]); [discriminate|]. rewrite (proj2 IH); [reflexivity|]. exists u1, u2, d, e. exact G.
    + destruct (append_items None (n + 1) sub true l) as [x c]. cbn [fst save_items save_item]. rewrite write_none_sub. cbn [bind].
      split; [intros _; exists u1, u2, d, e; left; reflexivity|reflexivity].
Qed.
Print Assumptions C95_smruns_factory_loses.

(** Only without sub directories do they get files, named after the text "None". *)
Theorem C95_smruns_factory_flat : forall validate sub l, exists r,
  save_runs validate smruns_factory_stem sub false l = Ok r /\ kept ($"None") sub false 0%N l r.
Proof.
  intros validate sub l. destruct (kept_total ($"None") sub false l 0%N) as [r H]. exists r. split; [|exact H].
  unfold save_runs, smruns_factory_stem. apply (save_kept validate None sub false (fun k u1 u2 d e => write_none_flat k sub u1 u2 d e)). exact H.
Qed.
Print Assumptions C95_smruns_factory_flat.
Example C95_example :
  let l := [IStorable ($"u") ($"v") ($".json") None; INone 3; IStorable ($"u") ($"v") ($".sto") (Some ($".npy"))] in
  save_runs false mruns_factory_stem ($"a") true l = Ok [SFile ($"a/run-0/run.json"); SInline 3; SFile ($"a/run-1/run.npy")] /\
  save_runs false smruns_factory_stem ($"a") true l = Ok [SMarker UnboundLocalError; SInline 3; SMarker UnboundLocalError] /\
  save_runs true smruns_factory_stem ($"a") true l = Exn ValidationError /\
  save_runs true smruns_factory_stem ($"a") false l = Ok [SFile ($"a/None-0.json"); SInline 3; SFile ($"a/None-1.npy")].
Proof. vm_compute. repeat split. Qed.
