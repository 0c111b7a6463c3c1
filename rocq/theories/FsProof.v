(** Lemmas about the file system model. *)
From Coq Require Import List Ascii String Bool Arith Lia.
From Verif Require Import Base PosixModel FsModel.
Import ListNotations.

Lemma assoc_set_same {A} k (v : A) l : assoc k (assoc_set k v l) = Some v.
Proof.
  induction l as [|[x w] r IH]; cbn.
  - destruct (str_eq_dec k k); congruence.
  - destruct (str_eq_dec x k) as [->|]; cbn.
    + destruct (str_eq_dec k k); congruence.
    + destruct (str_eq_dec x k); [congruence|exact IH].
Qed.

Lemma assoc_set_other {A} k k' (v : A) l : k <> k' -> assoc k' (assoc_set k v l) = assoc k' l.
Proof.
  intros H. induction l as [|[x w] r IH]; cbn.
  - destruct (str_eq_dec k k'); congruence.
  - destruct (str_eq_dec x k) as [->|]; cbn.
    + destruct (str_eq_dec k k'); congruence.
    + destruct (str_eq_dec x k'); [reflexivity|exact IH].
Qed.

Lemma assoc_del_same {A} k (l : list (str * A)) : assoc k (assoc_del k l) = None.
Proof.
  induction l as [|[x w] r IH]; cbn; [reflexivity|].
  destruct (str_eq_dec x k); [exact IH|]. cbn. destruct (str_eq_dec x k); [congruence|exact IH].
Qed.

Lemma assoc_del_other {A} k k' (l : list (str * A)) : k <> k' -> assoc k' (assoc_del k l) = assoc k' l.
Proof.
  intros H. induction l as [|[x w] r IH]; cbn; [reflexivity|].
  destruct (str_eq_dec x k) as [->|]; cbn.
  - destruct (str_eq_dec k k'); [congruence|exact IH].
  - destruct (str_eq_dec x k'); [reflexivity|exact IH].
Qed.

Lemma assoc_set_id {A} k (v : A) l : assoc k l = Some v -> assoc_set k v l = l.
Proof.
  induction l as [|[x w] r IH]; cbn; [discriminate|].
  destruct (str_eq_dec x k) as [->|].
  - intros H; inversion H; reflexivity.
  - intros H. rewrite IH by assumption. reflexivity.
Qed.

Lemma assoc_In {A} k (v : A) l : assoc k l = Some v -> In (k, v) l.
Proof.
  induction l as [|[x w] r IH]; cbn; [discriminate|].
  destruct (str_eq_dec x k) as [->|].
  - intros H; inversion H; left; reflexivity.
  - intros H; right; auto.
Qed.

Lemma assoc_None {A} k (l : list (str * A)) : assoc k l = None <-> ~ In k (map fst l).
Proof.
  induction l as [|[x w] r IH]; cbn; [tauto|].
  destruct (str_eq_dec x k) as [->|].
  - split; [discriminate|]. intros H. exfalso. apply H. left; reflexivity.
  - rewrite IH. intuition congruence.
Qed.

Lemma assoc_Some_In {A} k (v : A) l : NoDup (map fst l) -> In (k, v) l -> assoc k l = Some v.
Proof.
  induction l as [|[x w] r IH]; cbn; [contradiction|].
  intros Hn [H|H].
  - inversion H; subst. destruct (str_eq_dec k k); congruence.
  - inversion Hn; subst. destruct (str_eq_dec x k) as [->|]; [|auto].
    exfalso. apply H2. apply (in_map fst) in H. exact H.
Qed.

Definition loc_eq_dec : forall a b : loc, {a = b} + {a <> b} := list_eq_dec str_eq_dec.

(** ** write_file *)
Lemma write_file_lookup n l c n' : write_file n l c = Ok n' ->
  forall q, file_at n' q = if loc_eq_dec q l then Some c else file_at n q.
Proof.
  revert n n'. induction l as [|x r IH]; intros n n' H; [discriminate|].
  cbn in H. destruct n as [c0|es]; [discriminate|]. destruct r as [|y r].
  - assert (n' = Dir (assoc_set x (File c) es)) as ->.
    { destruct (assoc x es) as [[|]|]; inversion H; reflexivity. }
    assert (Hd : forall e, assoc x es <> Some (Dir e)) by (intros e E; rewrite E in H; discriminate).
    intros q. unfold file_at. destruct q as [|z q]; cbn [lookup].
    + destruct (loc_eq_dec [] [x]); [discriminate|reflexivity].
    + destruct (str_eq_dec x z) as [<-|Hz].
      * rewrite assoc_set_same. destruct q as [|w q]; cbn [lookup].
        -- destruct (loc_eq_dec [x] [x]); congruence.
        -- destruct (loc_eq_dec (x :: w :: q) [x]); [discriminate|].
           destruct (assoc x es) as [[|e]|]; cbn; auto. exfalso; eapply Hd; reflexivity.
      * rewrite assoc_set_other by assumption.
        destruct (loc_eq_dec (z :: q) [x]); [congruence|reflexivity].
  - destruct (assoc x es) as [m|] eqn:Em; [|discriminate].
    destruct (write_file m (y :: r) c) as [m'|] eqn:Ew; [|discriminate].
    inversion H; subst. intros q. unfold file_at. destruct q as [|z q]; cbn [lookup].
    + destruct (loc_eq_dec [] (x :: y :: r)); [discriminate|reflexivity].
    + destruct (str_eq_dec x z) as [<-|Hz].
      * rewrite assoc_set_same, Em. specialize (IH _ _ Ew q). unfold file_at in IH.
        rewrite IH. destruct (loc_eq_dec q (y :: r)), (loc_eq_dec (x :: q) (x :: y :: r)); congruence.
      * rewrite assoc_set_other by assumption.
        destruct (loc_eq_dec (z :: q) (x :: y :: r)); [congruence|reflexivity].
Qed.

Lemma write_file_is_dir n l c n' : write_file n l c = Ok n' -> forall q, is_dir n' q = is_dir n q.
Proof.
  revert n n'. induction l as [|x r IH]; intros n n' H; [discriminate|].
  cbn in H. destruct n as [c0|es]; [discriminate|]. destruct r as [|y r].
  - assert (n' = Dir (assoc_set x (File c) es)) as ->.
    { destruct (assoc x es) as [[|]|]; inversion H; reflexivity. }
    assert (Hd : forall e, assoc x es <> Some (Dir e)) by (intros e E; rewrite E in H; discriminate).
    intros q. unfold is_dir. destruct q as [|z q]; cbn [lookup]; [reflexivity|].
    destruct (str_eq_dec x z) as [<-|Hz].
    + rewrite assoc_set_same. destruct q as [|w q]; cbn; destruct (assoc x es) as [[|e]|]; cbn; auto;
        exfalso; eapply Hd; reflexivity.
    + rewrite assoc_set_other by assumption. reflexivity.
  - destruct (assoc x es) as [m|] eqn:Em; [|discriminate].
    destruct (write_file m (y :: r) c) as [m'|] eqn:Ew; [|discriminate].
    inversion H; subst. intros q. unfold is_dir. destruct q as [|z q]; cbn [lookup]; [reflexivity|].
    destruct (str_eq_dec x z) as [<-|Hz].
    + rewrite assoc_set_same, Em. apply (IH _ _ Ew q).
    + rewrite assoc_set_other by assumption. reflexivity.
Qed.

(** when writing succeeds *)
Lemma write_file_ok n l x c : is_dir n l = true -> is_dir n (l ++ [x]) = false ->
  exists n', write_file n (l ++ [x]) c = Ok n'.
Proof.
  revert n. induction l as [|y l IH]; intros n Hd Hn.
  - cbn in *. unfold is_dir in Hd, Hn. cbn in Hd, Hn. destruct n as [|es]; [discriminate|].
    destruct (assoc x es) as [[|]|]; [|discriminate|]; eexists; reflexivity.
  - unfold is_dir in Hd. cbn in Hd. destruct n as [|es]; [discriminate|].
    destruct (assoc y es) as [m|] eqn:Em; [|discriminate].
    destruct (IH m) as [m' Hm']; [exact Hd| |].
    + unfold is_dir in *. cbn in Hn. rewrite Em in Hn. exact Hn.
    + exists (Dir (assoc_set y m' es)). cbn. destruct (l ++ [x]) eqn:E; [destruct l; discriminate|].
      rewrite Em, Hm'. reflexivity.
Qed.

Lemma write_file_same n x l c : file_at n (x :: l) = Some c -> write_file n (x :: l) c = Ok n.
Proof.
  revert n x. induction l as [|y r IH]; intros n x H; unfold file_at in H; cbn in H;
    (destruct n as [c0|es]; [discriminate|]); (destruct (assoc x es) as [m|] eqn:Em; [|discriminate]).
  - destruct m; [|discriminate]. inversion H; subst. cbn. rewrite Em.
    rewrite assoc_set_id by assumption. reflexivity.
  - change (write_file (Dir es) (x :: y :: r) c) with
      (match assoc x es with
       | None => Exn FileNotFoundError
       | Some m => match write_file m (y :: r) c with
                   | Ok m' => Ok (Dir (assoc_set x m' es)) | Exn e => Exn e end
       end).
    rewrite Em. rewrite (IH m y) by exact H.
    rewrite assoc_set_id by assumption. reflexivity.
Qed.

(** ** makedirs *)
Lemma lookup_empty_dir q : lookup (Dir []) q = match q with [] => Some (Dir []) | _ => None end.
Proof. destruct q; reflexivity. Qed.

Lemma makedirs_file_at l : forall n n', makedirs n l = Ok n' -> forall q, file_at n' q = file_at n q.
Proof.
  induction l as [|x r IH]; intros n n' H q; cbn in H.
  - destruct n; inversion H; reflexivity.
  - destruct n as [c|es]; [discriminate|].
    destruct (makedirs (match assoc x es with Some m => m | None => Dir [] end) r) as [m'|] eqn:E;
      [|discriminate]. inversion H; subst.
    unfold file_at. destruct q as [|z q]; cbn [lookup]; [reflexivity|].
    destruct (str_eq_dec x z) as [<-|Hz].
    + rewrite assoc_set_same. specialize (IH _ _ E q). unfold file_at in IH. rewrite IH.
      destruct (assoc x es); [reflexivity|]. rewrite lookup_empty_dir. destruct q; reflexivity.
    + rewrite assoc_set_other by assumption. reflexivity.
Qed.

(** [q] is a prefix of [l]. *)
Fixpoint is_prefix (q l : loc) : bool :=
  match q, l with
  | [], _ => true
  | x :: q', y :: l' => if str_eq_dec x y then is_prefix q' l' else false
  | _ :: _, [] => false
  end.

Lemma is_prefix_iff q l : is_prefix q l = true <-> exists r, l = q ++ r.
Proof.
  revert l. induction q as [|x q IH]; intros l; cbn.
  - split; [intros _; exists l; reflexivity|reflexivity].
  - destruct l as [|y l]; [split; [discriminate|intros [r H]; discriminate]|].
    destruct (str_eq_dec x y) as [->|Hn].
    + rewrite IH. split; intros [r H]; exists r; cbn in *; congruence.
    + split; [discriminate|]. intros [r H]; cbn in H. congruence.
Qed.

Lemma makedirs_is_dir l : forall n n', makedirs n l = Ok n' ->
  forall q, is_dir n' q = is_dir n q || is_prefix q l.
Proof.
  induction l as [|x r IH]; intros n n' H q; cbn in H.
  - destruct n; inversion H; subst. destruct q; cbn; [reflexivity|].
    destruct (is_dir (Dir es) (l :: q)); reflexivity.
  - destruct n as [c|es]; [discriminate|].
    destruct (makedirs (match assoc x es with Some m => m | None => Dir [] end) r) as [m'|] eqn:E;
      [|discriminate]. inversion H; subst.
    unfold is_dir. destruct q as [|z q]; cbn [lookup is_prefix]; [reflexivity|].
    destruct (str_eq_dec z x) as [->|Hz].
    + rewrite assoc_set_same. specialize (IH _ _ E q). unfold is_dir in IH. rewrite IH.
      destruct (assoc x es); [reflexivity|]. rewrite lookup_empty_dir.
      destruct q; reflexivity.
    + rewrite assoc_set_other by congruence. rewrite orb_false_r. reflexivity.
Qed.

(** makedirs succeeds iff no file is in the way *)
Lemma makedirs_ok l : forall n, (forall q, is_prefix q l = true -> file_at n q = None) ->
  exists n', makedirs n l = Ok n'.
Proof.
  induction l as [|x r IH]; intros n H; cbn.
  - specialize (H [] eq_refl). unfold file_at in H; cbn in H. destruct n; [discriminate|eexists; reflexivity].
  - destruct n as [c|es]; [specialize (H [] eq_refl); discriminate|].
    destruct (IH (match assoc x es with Some m => m | None => Dir [] end)) as [m' ->]; [|eexists; reflexivity].
    intros q Hq. specialize (H (x :: q)). cbn in H. destruct (str_eq_dec x x); [|congruence].
    specialize (H Hq). unfold file_at in *. cbn in H. destruct (assoc x es); [exact H|].
    rewrite lookup_empty_dir. destruct q; reflexivity.
Qed.

(** ** delete_at *)
Lemma delete_at_file_at l : forall n,
  (forall q, q <> l -> is_prefix l q = true -> file_at n q = None) ->
  l <> [] ->
  forall q, file_at (delete_at n l) q = if loc_eq_dec q l then None else file_at n q.
Proof.
  induction l as [|x r IH]; intros n Hb Hn q; [congruence|]. cbn [delete_at].
  destruct n as [c|es].
  - destruct (loc_eq_dec q (x :: r)) as [->|]; reflexivity.
  - destruct r as [|y r].
    + unfold file_at. destruct q as [|z q]; cbn [lookup].
      * destruct (loc_eq_dec [] [x]); [discriminate|reflexivity].
      * destruct (str_eq_dec x z) as [<-|Hz].
        -- rewrite assoc_del_same. destruct (loc_eq_dec (x :: q) [x]) as [|Hq]; [reflexivity|].
           specialize (Hb (x :: q) Hq). cbn in Hb. destruct (str_eq_dec x x); [|congruence].
           specialize (Hb eq_refl). unfold file_at in Hb. cbn in Hb. symmetry; exact Hb.
        -- rewrite assoc_del_other by assumption.
           destruct (loc_eq_dec (z :: q) [x]); [congruence|reflexivity].
    + destruct (assoc x es) as [m|] eqn:Em.
      * unfold file_at. destruct q as [|z q]; cbn [lookup].
        -- destruct (loc_eq_dec [] (x :: y :: r)); [discriminate|reflexivity].
        -- destruct (str_eq_dec x z) as [<-|Hz].
           ++ rewrite assoc_set_same, Em. assert (Hb' : forall q, q <> y :: r ->
                is_prefix (y :: r) q = true -> file_at m q = None).
              { intros q0 H1 H2. specialize (Hb (x :: q0)). unfold file_at in Hb. cbn [lookup] in Hb.
                rewrite Em in Hb. apply Hb; [congruence|]. cbn. destruct (str_eq_dec x x); [exact H2|congruence]. }
              specialize (IH m Hb'). unfold file_at in IH. rewrite IH by discriminate.
              destruct (loc_eq_dec q (y :: r)), (loc_eq_dec (x :: q) (x :: y :: r)); congruence.
           ++ rewrite assoc_set_other by assumption.
              destruct (loc_eq_dec (z :: q) (x :: y :: r)); [congruence|reflexivity].
      * destruct (loc_eq_dec q (x :: y :: r)) as [->|]; [|reflexivity].
        unfold file_at. cbn. rewrite Em. reflexivity.
Qed.

Lemma delete_at_is_dir l : forall n,
  (forall q, q <> l -> is_prefix l q = true -> is_dir n q = false) ->
  l <> [] ->
  forall q, is_dir (delete_at n l) q = if loc_eq_dec q l then false else is_dir n q.
Proof.
  induction l as [|x r IH]; intros n Hb Hn q; [congruence|]. cbn [delete_at].
  destruct n as [c|es].
  - destruct (loc_eq_dec q (x :: r)) as [->|]; reflexivity.
  - destruct r as [|y r].
    + unfold is_dir. destruct q as [|z q]; cbn [lookup].
      * destruct (loc_eq_dec [] [x]); [discriminate|reflexivity].
      * destruct (str_eq_dec x z) as [<-|Hz].
        -- rewrite assoc_del_same. destruct (loc_eq_dec (x :: q) [x]) as [|Hq]; [reflexivity|].
           specialize (Hb (x :: q) Hq). cbn in Hb. destruct (str_eq_dec x x); [|congruence].
           specialize (Hb eq_refl). unfold is_dir in Hb. cbn in Hb. symmetry; exact Hb.
        -- rewrite assoc_del_other by assumption.
           destruct (loc_eq_dec (z :: q) [x]); [congruence|reflexivity].
    + destruct (assoc x es) as [m|] eqn:Em.
      * unfold is_dir. destruct q as [|z q]; cbn [lookup].
        -- destruct (loc_eq_dec [] (x :: y :: r)); [discriminate|reflexivity].
        -- destruct (str_eq_dec x z) as [<-|Hz].
           ++ rewrite assoc_set_same, Em. assert (Hb' : forall q, q <> y :: r ->
                is_prefix (y :: r) q = true -> is_dir m q = false).
              { intros q0 H1 H2. specialize (Hb (x :: q0)). unfold is_dir in Hb. cbn [lookup] in Hb.
                rewrite Em in Hb. apply Hb; [congruence|]. cbn. destruct (str_eq_dec x x); [exact H2|congruence]. }
              specialize (IH m Hb'). unfold is_dir in IH. rewrite IH by discriminate.
              destruct (loc_eq_dec q (y :: r)), (loc_eq_dec (x :: q) (x :: y :: r)); congruence.
           ++ rewrite assoc_set_other by assumption.
              destruct (loc_eq_dec (z :: q) (x :: y :: r)); [congruence|reflexivity].
      * destruct (loc_eq_dec q (x :: y :: r)) as [->|]; [|reflexivity].
        unfold is_dir. cbn. rewrite Em. reflexivity.
Qed.

Lemma lookup_app n a b : lookup n (a ++ b) = match lookup n a with Some m => lookup m b | None => None end.
Proof.
  revert n. induction a as [|x a IH]; intros n; [reflexivity|]. cbn.
  destruct n as [|es]; [reflexivity|]. destruct (assoc x es); [apply IH|reflexivity].
Qed.

Lemma below_leaf n l : (exists c, lookup n l = Some (File c)) \/ lookup n l = Some (Dir []) ->
  forall q, q <> l -> is_prefix l q = true -> lookup n q = None.
Proof.
  intros H q Hq Hp. apply is_prefix_iff in Hp as [r ->]. rewrite lookup_app.
  destruct r as [|x r]; [rewrite app_nil_r in Hq; congruence|].
  destruct H as [[c ->]| ->]; reflexivity.
Qed.

(** ** replace_at *)
Lemma lookup_replace_at l : forall n m k, lookup n l = Some k ->
  forall q, is_prefix q l = false ->
  lookup (replace_at n l m) q = if is_prefix l q then lookup m (skipn (List.length l) q) else lookup n q.
Proof.
  induction l as [|x r IH]; intros n m k H q Hq; cbn [replace_at is_prefix skipn List.length].
  - reflexivity.
  - cbn in H. destruct n as [c|es]; [discriminate|].
    destruct (assoc x es) as [n1|] eqn:En; [|discriminate].
    destruct q as [|z q]; [discriminate|]. cbn [is_prefix] in Hq. cbn [lookup is_prefix skipn].
    destruct (str_eq_dec x z) as [<-|Hz].
    + rewrite assoc_set_same, En. destruct (str_eq_dec x x); [|congruence].
      apply (IH n1 m k H q Hq).
    + rewrite assoc_set_other by assumption. reflexivity.
Qed.

Lemma lookup_replace_at_prefix l : forall n m k, lookup n l = Some k ->
  forall q x r, l = q ++ x :: r ->
  exists es es', lookup n q = Some (Dir es) /\ lookup (replace_at n l m) q = Some (Dir es').
Proof.
  induction l as [|y l IH]; intros n m k H q x r E; [destruct q; discriminate|].
  cbn in H. destruct n as [c|es]; [discriminate|].
  destruct (assoc y es) as [n1|] eqn:En; [|discriminate].
  destruct q as [|z q].
  - cbn. rewrite En. eexists; eexists; split; reflexivity.
  - inversion E; subst. cbn. rewrite En. cbn. rewrite assoc_set_same. eapply IH; eauto.
Qed.
