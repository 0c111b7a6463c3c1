(** C108: several processes that write the same [.gitignore]. *)
From Coq Require Import Ascii String List Bool Arith Lia.
From Verif Require Import Base PosixModel FsModel PathModel PathSpec DirSpec DirProof PathFacts RaceModel.
Import ListNotations.

(** ** Specification *)
(** Every entry is one line and one of them is not [.gitignore]. *)
Definition job_ok (j : job) : Prop := Forall one_line (j_ignored j) /\ exists p, In p (j_ignored j) /\ p <> $".gitignore".

(** The lines of the file. *)
Definition listed (file : option str) (p : str) : Prop := exists t, file = Some t /\ In p (splitlines t).

(** At no time have two processes opened the file for writing. *)
Definition exclusive (jobs : nat -> job) (schedule : list nat) (s : state) : Prop :=
  forall a b i j t u, schedule = a ++ b -> s_stage (run jobs a s) i = Opened t -> s_stage (run jobs a s) j = Opened u -> i = j.

(** The processes [l] make their call one after the other. *)
Definition in_turn (l : list nat) : list nat := flat_map (fun i => [i; i; i]) l.

(** ** Lemmas *)
Lemma gi_one_line : one_line ($".gitignore").
Proof. intros c Hc. repeat (destruct Hc as [<-|Hc]; [reflexivity|]). contradiction. Qed.

Lemma new_text_lines j o : job_ok j -> Forall one_line o -> splitlines (new_text j o) = sorted_set (($".gitignore") :: j_ignored j ++ o).
Proof.
  intros [H1 _] H2. unfold new_text. apply splitlines_join.
  - apply Forall_forall. intros x Hx. apply sorted_set_In in Hx as [<-|Hx]; [exact gi_one_line|].
    rewrite Forall_forall in H1, H2. apply in_app_or in Hx as [Hx|Hx]; auto.
  - intros E. assert (H : In ($".gitignore") (sorted_set (($".gitignore") :: j_ignored j ++ o))) by (apply sorted_set_In; left; reflexivity).
    rewrite E in H. destruct H.
  - apply sorted_set_last. left. reflexivity.
Qed.

Lemma new_text_In j o p : job_ok j -> Forall one_line o -> In p (splitlines (new_text j o)) <-> p = $".gitignore" \/ In p (j_ignored j) \/ In p o.
Proof.
  intros H1 H2. rewrite new_text_lines by assumption. rewrite sorted_set_In. cbn [In]. rewrite in_app_iff. intuition.
Qed.

Lemma overlay_nil t : overlay t [] = t.
Proof. unfold overlay. rewrite skipn_nil, app_nil_r. reflexivity. Qed.

Lemma set_same f i x : set_stage f i x i = x.
Proof. unfold set_stage. rewrite Nat.eqb_refl. reflexivity. Qed.
Lemma set_other f i x j : j <> i -> set_stage f i x j = f j.
Proof. intros H. unfold set_stage. apply Nat.eqb_neq in H. rewrite H. reflexivity. Qed.

Lemma step_other jobs s i j : j <> i -> s_stage (step jobs s i) j = s_stage s j.
Proof. intros H. unfold step. destruct (s_stage s i); cbn; try apply set_other; auto. Qed.

Lemma run_app jobs a b s : run jobs (a ++ b) s = run jobs b (run jobs a s).
Proof. apply fold_left_app. Qed.

Lemma run_other jobs l s j : ~ In j l -> s_stage (run jobs l s) j = s_stage s j.
Proof.
  revert s. induction l as [|i l IH]; intros s H; [reflexivity|]. change (run jobs (i :: l) s) with (run jobs l (step jobs s i)). cbn [In] in H.
  rewrite IH by tauto. apply step_other. intuition.
Qed.

(** The lines a process has read. *)
Definition read_lines (j : job) (file : option str) : list str :=
  match file with None => [] | Some t => filter (fun p => negb (j_drops j p)) (splitlines t) end.

Lemma read_lines_In j f p : In p (read_lines j f) <-> listed f p /\ j_drops j p = false.
Proof.
  unfold read_lines, listed. destruct f as [t|]; [|split; [intros []|intros [(t & E & _) _]; discriminate]].
  rewrite filter_In, negb_true_iff. split.
  - intros [H1 H2]. split; [exists t; auto|assumption].
  - intros [(u & E & H1) H2]. inversion E; subst. auto.
Qed.

Lemma read_lines_one j f : Forall one_line (read_lines j f).
Proof.
  apply Forall_forall. intros p H. apply read_lines_In in H as [(t & _ & H) _].
  pose proof (splitlines_lines t) as L. rewrite Forall_forall in L. auto.
Qed.

Lemma step_start jobs s i : s_stage s i = Start -> step jobs s i = mk_state (s_file s) (set_stage (s_stage s) i (HasRead (read_lines (jobs i) (s_file s)))).
Proof. intros H. unfold step. rewrite H. reflexivity. Qed.

Lemma last_two jobs s i o : s_stage s i = HasRead o -> s_file (run jobs [i; i] s) = Some (new_text (jobs i) o) /\ s_stage (run jobs [i; i] s) i = Done.
Proof.
  intros H. cbn. unfold step at 2. unfold step at 3. rewrite H. cbn. unfold step. cbn. rewrite set_same. cbn. rewrite overlay_nil, set_same. auto.
Qed.

Lemma turn jobs s i : s_stage s i = Start ->
  s_file (run jobs [i; i; i] s) = Some (new_text (jobs i) (read_lines (jobs i) (s_file s))) /\
  forall j, j <> i -> s_stage (run jobs [i; i; i] s) j = s_stage s j.
Proof.
  intros H. change [i; i; i] with ([i] ++ [i; i]). rewrite run_app. split.
  - apply last_two. cbn. rewrite step_start by assumption. cbn. apply set_same.
  - intros j Hj. rewrite <- run_app. apply run_other. cbn. intuition.
Qed.

(** ** Theorems *)
(** A process that is not interrupted leaves what [gitignore] leaves. *)
Theorem C108_alone : forall jobs i file s, job_ok (jobs i) ->
  s_stage s i = Start -> s_file s = file ->
  exists t, s_file (run jobs [i; i; i] s) = Some t /\
  forall p, In p (splitlines t) <-> p = $".gitignore" \/ In p (j_ignored (jobs i)) \/ (listed file p /\ j_drops (jobs i) p = false).
Proof.
  intros jobs i file s Hj Hs <-. destruct (turn jobs s i Hs) as [E _]. eexists. split; [exact E|]. intros p.
  rewrite new_text_In by (assumption || apply read_lines_one). rewrite read_lines_In. reflexivity.
Qed.
Print Assumptions C108_alone.

Theorem C108_as_gitignore : forall cwd fs dir ignored check jobs i,
  let G := os_loc cwd (join2 dir ($".gitignore")) in
  jobs i = mk_job ignored (fun p => existsb (str_teq p) check && negb (exists_at fs (os_loc cwd (join2 dir p)))) ->
  job_ok (jobs i) ->
  forall t, match lookup fs G with None => t = None | Some (File (Text u)) => t = Some u | _ => False end ->
  forall u, s_file (run jobs [i; i; i] (initial t)) = Some u ->
  gitignore cwd fs dir ignored check = write_file fs G (Text u).
Proof.
  intros cwd fs dir ignored check jobs i G Hj Hok t Ht u Hu.
  destruct (turn jobs (initial t) i eq_refl) as [E _]. rewrite E in Hu. cbn [initial s_file] in Hu.
  assert (Eu : u = new_text (jobs i) (read_lines (jobs i) t)) by congruence. subst u. clear Hu E.
  assert (Eo : read_lines (jobs i) t =
    filter (fun p => negb (existsb (str_teq p) check) || exists_at fs (os_loc cwd (join2 dir p)))
      (match t with None => [] | Some s => splitlines s end)).
  { rewrite Hj. unfold read_lines. cbn. destruct t as [s|]; [|reflexivity]. apply filter_ext. intros p.
    rewrite negb_andb, negb_involutive. reflexivity. }
  unfold new_text. rewrite Eo. rewrite Hj in *. cbn [j_ignored] in *.
  unfold gitignore, gitignore_gen. fold G. destruct Hok as [_ (q & Hq & Hne)]. cbn [j_ignored] in Hq.
  assert (Hbig : forall o x, sorted_set (($".gitignore") :: ignored ++ o) <> [x]).
  { intros o x Ex. assert (H1 : In ($".gitignore") [x]) by (rewrite <- Ex; apply sorted_set_In; left; reflexivity).
    assert (H2 : In q [x]) by (rewrite <- Ex; apply sorted_set_In; right; apply in_or_app; left; exact Hq).
    destruct H1 as [H1|[]], H2 as [H2|[]]. congruence. }
  destruct (lookup fs G) as [[[s|j]|es]|]; try contradiction; subst t; cbn [bind]; cbv beta zeta.
  - match goal with |- context [sorted_set ?x] => remember (sorted_set x) as z eqn:Ez end.
    destruct z as [|z1 [|z2 z]]; try reflexivity. exfalso. symmetry in Ez. exact (Hbig _ _ Ez).
  - cbn [filter]. match goal with |- context [sorted_set ?x] => remember (sorted_set x) as z eqn:Ez end.
    destruct z as [|z1 [|z2 z]]; try reflexivity. exfalso. symmetry in Ez. exact (Hbig _ _ Ez).
Qed.
Print Assumptions C108_as_gitignore.

(** One after the other, nothing is lost: a line that nobody drops and that was there or is an entry of one of them is there at the end. *)
Theorem C108_one_after_another : forall jobs l file p, (forall i, job_ok (jobs i)) -> NoDup l ->
  (forall i, In i l -> j_drops (jobs i) p = false) ->
  listed file p \/ (exists i, In i l /\ In p (j_ignored (jobs i))) ->
  listed (s_file (run jobs (in_turn l) (initial file))) p.
Proof.
  intros jobs l file p Hok Hnd Hd.
  assert (G : forall l s, NoDup l -> (forall i, In i l -> j_drops (jobs i) p = false) -> (forall i, In i l -> s_stage s i = Start) ->
    listed (s_file s) p \/ (exists i, In i l /\ In p (j_ignored (jobs i))) -> listed (s_file (run jobs (in_turn l) s)) p).
  { clear l file Hnd Hd. induction l as [|i l IH]; intros s Hnd Hd Hst Hp.
    - cbn. destruct Hp as [Hp|(i & [] & _)]. exact Hp.
    - inversion Hnd as [|? ? N1 N2]; subst. change (in_turn (i :: l)) with ([i; i; i] ++ in_turn l). rewrite run_app.
      destruct (turn jobs s i (Hst i (or_introl eq_refl))) as [E1 E2].
      apply IH; [assumption|intros; apply Hd; right; assumption| |].
      + intros j Hj. rewrite E2 by (intros ->; contradiction). apply Hst. right. assumption.
      + assert (L : forall q, listed (s_file (run jobs [i; i; i] s)) q <->
          q = $".gitignore" \/ In q (j_ignored (jobs i)) \/ In q (read_lines (jobs i) (s_file s))).
        { intros q. unfold listed at 1. rewrite E1. split.
          - intros (t & Et & H). inversion Et; subst t. apply new_text_In in H; [assumption|apply Hok|apply read_lines_one].
          - intros H. eexists. split; [reflexivity|]. apply new_text_In; [apply Hok|apply read_lines_one|assumption]. }
        destruct Hp as [Hp|(j & [->|Hj] & Hp)].
        * left. apply L. right; right. apply read_lines_In. split; [assumption|]. apply Hd. left. reflexivity.
        * left. apply L. right; left. exact Hp.
        * right. exists j. auto. }
  intros Hp. apply (G l (initial file)); auto.
Qed.
Print Assumptions C108_one_after_another.

(** A process that has read the file overwrites whatever the others write after that: with [before] what happens before it reads, and
    [between] what the others do before it writes, its result depends on the file as it was when it was read. *)
Theorem C108_others_lost : forall jobs before between i file, (forall i, job_ok (jobs i)) ->
  ~ In i before -> ~ In i between ->
  exists t, s_file (run jobs (before ++ [i] ++ between ++ [i; i]) (initial file)) = Some t /\
  forall p, In p (splitlines t) <->
    p = $".gitignore" \/ In p (j_ignored (jobs i)) \/ (listed (s_file (run jobs before (initial file))) p /\ j_drops (jobs i) p = false).
Proof.
  intros jobs before between i file Hok H1 H2. rewrite !run_app. set (s := run jobs before (initial file)) in *.
  assert (Hs : s_stage s i = Start) by (unfold s; rewrite run_other by assumption; reflexivity).
  assert (Hr : s_stage (run jobs between (run jobs [i] s)) i = HasRead (read_lines (jobs i) (s_file s))).
  { rewrite run_other by assumption. cbn. rewrite step_start by assumption. cbn. apply set_same. }
  destruct (last_two jobs _ i _ Hr) as [E _]. eexists. split; [exact E|]. intros p.
  rewrite new_text_In by (apply Hok || apply read_lines_one). rewrite read_lines_In. reflexivity.
Qed.
Print Assumptions C108_others_lost.

(** A process that reads while another has the file open for writing finds it empty: all lines but its own are lost, also those that were
    there before anyone began. *)
Theorem C108_emptied : forall jobs before between a i file, (forall i, job_ok (jobs i)) -> a <> i ->
  ~ In i before -> ~ In i between ->
  (exists o, s_stage (run jobs before (initial file)) a = HasRead o) ->
  exists t, s_file (run jobs (before ++ [a; i] ++ between ++ [i; i]) (initial file)) = Some t /\
  forall p, In p (splitlines t) <-> p = $".gitignore" \/ In p (j_ignored (jobs i)).
Proof.
  intros jobs before between a i file Hok Ha H1 H2 [o Ho].
  destruct (C108_others_lost jobs (before ++ [a]) between i file Hok) as (t & Et & Ht);
    [intros H; apply in_app_or in H as [H|[H|[]]]; auto|assumption|].
  exists t. split; [rewrite <- Et, <- app_assoc; reflexivity|]. intros p. rewrite Ht.
  rewrite run_app. cbn [run fold_left]. unfold step at 1. rewrite Ho. cbn [s_file]. split; [|tauto].
  intros [H|[H|[(u & E & H) _]]]; [left; assumption|right; assumption|]. inversion E; subst u. destruct H.
Qed.
Print Assumptions C108_emptied.

(** Two processes that have both opened the file: the shorter text is written over the start of the longer one. *)
Theorem C108_mixed : forall jobs a b file, a <> b ->
  let text i := new_text (jobs i) (read_lines (jobs i) file) in
  s_file (run jobs [a; b; a; b; a; b] (initial file)) = Some (text b ++ skipn (List.length (text b)) (text a)).
Proof.
  intros jobs a b file Hab text.
  assert (Eab : Nat.eqb a b = false) by (apply Nat.eqb_neq; assumption).
  assert (Eba : Nat.eqb b a = false) by (apply Nat.eqb_neq; congruence).
  unfold run, initial. cbn [fold_left].
  repeat (unfold step at 1; cbn [s_stage s_file]; unfold set_stage at 1).
  unfold step, set_stage. cbn [s_stage s_file]. repeat (rewrite ?Eab, ?Eba, ?Nat.eqb_refl; cbn [s_stage s_file]).
  rewrite overlay_nil. reflexivity.
Qed.
Print Assumptions C108_mixed.

(** If no two processes have the file open for writing at once, then whatever the order of their steps a line is listed only if it was there
    before or someone added it. *)
Theorem C108_nothing_foreign : forall jobs schedule file p, (forall i, job_ok (jobs i)) ->
  exclusive jobs schedule (initial file) ->
  listed (s_file (run jobs schedule (initial file))) p ->
  p = $".gitignore" \/ listed file p \/ exists i, In i schedule /\ In p (j_ignored (jobs i)).
Proof.
  intros jobs schedule file p Hok.
  set (fine := fun (l : list nat) (q : str) => q = $".gitignore" \/ listed file q \/ exists i, In i l /\ In q (j_ignored (jobs i))).
  set (inv := fun (l : list nat) (s : state) =>
    (forall q, listed (s_file s) q -> fine l q) /\
    (forall i o, s_stage s i = HasRead o -> Forall one_line o /\ forall q, In q o -> fine l q) /\
    (forall i t, s_stage s i = Opened t -> s_file s = Some [] /\ forall q, In q (splitlines t) -> fine l q)).
  assert (mono : forall l i q, fine l q -> fine (l ++ [i]) q).
  { intros l i q [H|[H|(j & H1 & H2)]]; [left; assumption|right; left; assumption|right; right; exists j; split; [apply in_or_app; left; assumption|assumption]]. }
  assert (G : forall l, exclusive jobs l (initial file) -> inv l (run jobs l (initial file))).
  { intros l. induction l as [|i l IH] using rev_ind; intros Hex.
    - split; [|split]; cbn; try discriminate. intros q H. right; left; exact H.
    - assert (Hex' : exclusive jobs l (initial file)).
      { intros a b j k t u E. apply (Hex a (b ++ [i])). rewrite E, app_assoc. reflexivity. }
      specialize (IH Hex'). rewrite run_app.
      set (s := run jobs l (initial file)) in *. destruct IH as (I1 & I2 & I3).
      cbn [run fold_left] in *. destruct (s_stage s i) as [|o|t|] eqn:Est.
      + rewrite step_start in * by assumption. split; [|split]; cbn [s_file s_stage] in *.
        * intros q Hq. apply mono, I1, Hq.
        * intros j o Ej. destruct (Nat.eq_dec j i) as [->|Hji].
          -- rewrite set_same in Ej. inversion Ej; subst o. split; [apply read_lines_one|]. intros q Hq.
             apply read_lines_In in Hq as [Hq _]. apply mono, I1, Hq.
          -- rewrite set_other in Ej by assumption. destruct (I2 _ _ Ej) as [X Y]. split; [assumption|]. intros q Hq. apply mono; auto.
        * intros j t Ej. destruct (Nat.eq_dec j i) as [->|Hji]; [rewrite set_same in Ej; discriminate|].
          rewrite set_other in Ej by assumption. destruct (I3 _ _ Ej) as [X Y]. split; [assumption|]. intros q Hq. apply mono; auto.
      + unfold step in *. rewrite Est in *. split; [|split]; cbn [s_file s_stage] in *.
        * intros q (t & E & H). inversion E; subst t. destruct H.
        * intros j o' Ej. destruct (Nat.eq_dec j i) as [->|Hji]; [rewrite set_same in Ej; discriminate|].
          rewrite set_other in Ej by assumption. destruct (I2 _ _ Ej) as [X Y]. split; [assumption|]. intros q Hq. apply mono; auto.
        * intros j t Ej. destruct (Nat.eq_dec j i) as [->|Hji].
          -- rewrite set_same in Ej. inversion Ej; subst t. split; [reflexivity|]. intros q Hq. destruct (I2 _ _ Est) as [X Y].
             apply new_text_In in Hq; [|apply Hok|exact X]. destruct Hq as [Hq|[Hq|Hq]].
             ++ left. exact Hq.
             ++ right; right. exists i. split; [apply in_or_app; right; left; reflexivity|exact Hq].
             ++ apply mono, Y, Hq.
          -- rewrite set_other in Ej by assumption. destruct (I3 _ _ Ej) as [X Y]. split; [reflexivity|]. intros q Hq. apply mono; auto.
      + destruct (I3 _ _ Est) as [Ef Et]. unfold step in *. rewrite Est in *. rewrite Ef in *. cbn [s_file s_stage] in *. rewrite overlay_nil in *.
        split; [|split]; cbn [s_file s_stage].
        * intros q (u & E & H). inversion E; subst u. apply mono, Et, H.
        * intros j o' Ej. destruct (Nat.eq_dec j i) as [->|Hji]; [rewrite set_same in Ej; discriminate|].
          rewrite set_other in Ej by assumption. destruct (I2 _ _ Ej) as [X Y]. split; [assumption|]. intros q Hq. apply mono; auto.
        * intros j u Ej. destruct (Nat.eq_dec j i) as [->|Hji]; [rewrite set_same in Ej; discriminate|].
          rewrite set_other in Ej by assumption. exfalso. apply Hji. apply (Hex l [i] j i u t); [reflexivity|assumption|assumption].
      + unfold step. rewrite Est. split; [|split].
        * intros q Hq. apply mono, I1, Hq.
        * intros j o Ej. destruct (I2 _ _ Ej) as [X Y]. split; [assumption|]. intros q Hq. apply mono; auto.
        * intros j t Ej. destruct (I3 _ _ Ej) as [X Y]. split; [assumption|]. intros q Hq. apply mono; auto. }
  intros Hex Hl. destruct (G schedule Hex) as [I1 _]. exact (I1 p Hl).
Qed.
Print Assumptions C108_nothing_foreign.

(** The restriction is needed: otherwise a line can appear that nobody asked for. *)
Definition long_and_short (i : nat) : job := mk_job (match i with 0 => [$"abcdef"] | _ => [$"x"] end) (fun _ => false).
Lemma long_and_short_ok i : job_ok (long_and_short i).
Proof.
  destruct i; split; cbn.
  1, 3: constructor; [|constructor]; intros c Hc; repeat (destruct Hc as [<-|Hc]; [reflexivity|]); contradiction.
  - exists ($"abcdef"). split; [left; reflexivity|discriminate].
  - exists ($"x"). split; [left; reflexivity|discriminate].
Qed.
Theorem C108_nothing_foreign_refuted : exists jobs schedule file p, (forall i, job_ok (jobs i)) /\
  listed (s_file (run jobs schedule (initial file))) p /\
  ~ (p = $".gitignore" \/ listed file p \/ exists i, In p (j_ignored (jobs i))).
Proof.
  exists long_and_short, [0; 1; 0; 1; 0; 1], None, ($"xbcdef"). split; [exact long_and_short_ok|]. split.
  - exists (join_lines [$".gitignore"; $"xbcdef"]). split; [vm_compute; reflexivity|vm_compute; right; left; reflexivity].
  - intros [H|[(t & H & _)|(i & H)]]; [discriminate|discriminate|]. destruct i; destruct H as [H|[]]; discriminate.
Qed.
Print Assumptions C108_nothing_foreign_refuted.

Example C108_example :
  let old := join_lines [$".gitignore"; $"old"] in
  s_file (run long_and_short (in_turn [0; 1]) (initial (Some old))) = Some (join_lines [$".gitignore"; $"abcdef"; $"old"; $"x"]) /\
  s_file (run long_and_short ([] ++ [1] ++ [0; 0; 0] ++ [1; 1]) (initial (Some old))) = Some (join_lines [$".gitignore"; $"old"; $"x"]) /\
  s_file (run long_and_short ([0] ++ [0; 1] ++ [0] ++ [1; 1]) (initial (Some old))) = Some (join_lines [$".gitignore"; $"x"]) /\
  (forall i, job_ok (long_and_short i)).
Proof. repeat (split; [vm_compute; reflexivity|]). exact long_and_short_ok. Qed.
