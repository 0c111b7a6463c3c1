(** C115: several handlers and the traceback of one message. *)
From Coq Require Import List Bool Arith Lia.
From Verif Require Import TraceLogModel.
Import ListNotations.

(** ** Specification *)
(** The handlers that get a message of level [lv]. *)
Definition called (lv : nat) (hs : list (kind * nat)) : list kind := map fst (filter (fun h => snd h <=? lv) hs).
(** The first of them that is a [DManHandler] shows rich tracebacks. *)
Definition rich_first (ks : list kind) : Prop := exists a b, ks = a ++ Rich :: b /\ ~ In Rich a /\ ~ In Plain a.

(** ** Lemmas *)
Fixpoint after (ks : list kind) (r : record) : record := match ks with [] => r | k :: ks => after ks (snd (emit k r)) end.
Lemma level_emit k r : r_level (snd (emit k r)) = r_level r.
Proof. destruct k, r as [lv [t|] [e|] [x|]]; reflexivity. Qed.
Lemma call_at pre : forall h post r, nth_error (call (pre ++ h :: post) r) (length pre) =
  Some (if snd h <=? r_level r then Some (fst (emit (fst h) (after (called (r_level r) pre) r))) else None).
Proof.
  induction pre as [|[k lv] pre IH]; intros [k' lv'] post r; cbn [app length call nth_error called filter map after fst snd].
  - destruct (lv' <=? r_level r); [|reflexivity]. destruct (emit k' r); reflexivity.
  - destruct (lv <=? r_level r) eqn:E.
    + pose proof (level_emit k r) as L. destruct (emit k r) as [o r'] eqn:Er. cbn in L. cbn [nth_error map fst after].
      rewrite IH, L, Er. reflexivity.
    + cbn [nth_error]. rewrite IH. reflexivity.
Qed.
Lemma after_live lv n : forall ks t, t = None \/ t = Some n -> exists t', (t' = None \/ t' = Some n) /\ after ks (mkR lv None (Some n) t) = mkR lv None (Some n) t'.
Proof. induction ks as [|k ks IH]; intros t H; [exists t; auto|]. cbn. destruct H; subst; destruct k; cbn; apply IH; auto. Qed.
Lemma after_gone lv t : forall ks, after ks (mkR lv None None t) = mkR lv None None t.
Proof. induction ks as [|[] ks IH]; cbn; auto; destruct t; cbn; apply IH. Qed.
Lemma after_cleared lv n : forall ks, exists t, after ks (mkR lv (Some n) None None) = mkR lv t None None
  /\ (In Plain ks -> t = None) /\ (~ In Plain ks -> t = Some n).
Proof.
  induction ks as [|k ks (t & E & A & B)]; [exists (Some n); cbn; tauto|]. destruct k; cbn.
  - exists t. intuition discriminate.
  - rewrite after_gone. exists None. intuition.
  - exists t. intuition discriminate.
Qed.
Lemma rich_first_cons k ks : rich_first (k :: ks) <-> k = Rich \/ k = Stream /\ rich_first ks.
Proof.
  split.
  - intros (a & b & E & N & M). destruct a as [|x a]; cbn in E; inversion E; subst; [auto|]. right.
    destruct x; cbn in *; try tauto. split; [reflexivity|]. exists a, b. tauto.
  - intros [->|[-> (a & b & -> & N & M)]]; [exists [], ks; auto|]. exists (Stream :: a), b. cbn. intuition discriminate.
Qed.
Lemma rich_first_nil : ~ rich_first [].
Proof. intros (a & b & E & _). destruct a; discriminate. Qed.
Lemma after_recorded lv n : forall ks, exists t x, after ks (mkR lv (Some n) None (Some n)) = mkR lv t None x
  /\ (In Plain ks -> t = None) /\ (~ In Plain ks -> t = Some n) /\ (rich_first ks -> x = None) /\ (~ rich_first ks -> x = Some n).
Proof.
  induction ks as [|k ks (t & x & E & A & B & C & D)].
  { exists (Some n), (Some n). pose proof rich_first_nil. cbn. tauto. }
  destruct k; cbn [after emit snd format r_level r_trace r_exc r_text]; cbn.
  - destruct (after_cleared lv n ks) as (t' & -> & A' & B'). exists t', None. split; [reflexivity|]. rewrite rich_first_cons.
    intuition discriminate.
  - rewrite after_gone. eexists _, _. split; [reflexivity|]. rewrite rich_first_cons. intuition discriminate.
  - exists t, x. split; [exact E|]. rewrite rich_first_cons. intuition discriminate.
Qed.

(** ** Theorems *)
(** A handler that does not get the message shows nothing; a message without error shows none. *)
Theorem C115_plain_message : forall lv pre h post, nth_error (call (pre ++ h :: post) (make_record lv NoInfo)) (length pre) =
  Some (if snd h <=? lv then Some [] else None).
Proof.
  intros. rewrite call_at. cbn [make_record r_level]. rewrite after_gone. destruct (snd h <=? lv); [|reflexivity]. destruct (fst h); reflexivity.
Qed.

(** A live exception is shown exactly once by every handler that gets the message, whatever the others are. *)
Theorem C115_live : forall lv n pre h post, nth_error (call (pre ++ h :: post) (make_record lv (Live n))) (length pre) =
  Some (if snd h <=? lv then Some [match fst h with Rich => AsTrace n | _ => AsText n end] else None).
Proof.
  intros. rewrite call_at. cbn [make_record r_level]. destruct (after_live lv n (called lv pre) None (or_introl eq_refl)) as (t & H & ->).
  destruct (snd h <=? lv); [|reflexivity]. destruct (fst h), H; subst; reflexivity.
Qed.

(** A recorded trace is shown by a handler depending on those before it: formatted, if it is rich and no plain
    [DManHandler] got the message before; else as text, unless the first [DManHandler] before it was a rich one; then
    it is not shown. *)
Theorem C115_recorded : forall lv n pre h post o, snd h <= lv ->
  nth_error (call (pre ++ h :: post) (make_record lv (Recorded n))) (length pre) = Some (Some o) ->
  (fst h = Rich /\ ~ In Plain (called lv pre) -> o = [AsTrace n])
  /\ (fst h <> Rich \/ In Plain (called lv pre) -> ~ rich_first (called lv pre) -> o = [AsText n])
  /\ (fst h <> Rich \/ In Plain (called lv pre) -> rich_first (called lv pre) -> o = []).
Proof.
  intros lv n pre h post o L. rewrite call_at. cbn [make_record r_level]. apply Nat.leb_le in L. rewrite L.
  destruct (after_recorded lv n (called lv pre)) as (t & x & -> & A & B & C & D). intros H. inversion H; subst; clear H. repeat split.
  - intros [-> N]. rewrite (B N). reflexivity.
  - intros H N. rewrite (D N). destruct (fst h); [|reflexivity|reflexivity]. destruct H as [H|H]; [congruence|]. rewrite (A H). reflexivity.
  - intros H N. rewrite (C N). destruct (fst h); [|reflexivity|reflexivity]. destruct H as [H|H]; [congruence|]. rewrite (A H). reflexivity.
Qed.
(** The handler does get the message, and the message goes to all handlers. *)
Theorem C115_all_called : forall hs lv i, map (fun o => match o with Some _ => true | None => false end) (call hs (make_record lv i)) = map (fun h => snd h <=? lv) hs.
Proof.
  intros hs lv i. assert (E : r_level (make_record lv i) = lv) by (destruct i; reflexivity). revert E. generalize (make_record lv i). clear i.
  induction hs as [|[k l] hs IH]; intros r E; [reflexivity|]. cbn [call map snd]. rewrite E. destruct (l <=? lv).
  - pose proof (level_emit k r) as Lv. destruct (emit k r) as [o r']. cbn in *. rewrite IH by congruence. reflexivity.
  - cbn. rewrite IH by exact E. reflexivity.
Qed.

(** Every handler shows the trace if no plain [DManHandler] is there and the others come before the rich ones. *)
Theorem C115_order : forall lv n streams richs, Forall (fun h => fst h = Stream) streams -> Forall (fun h => fst h = Rich) richs ->
  forall o, In (Some o) (call (streams ++ richs) (make_record lv (Recorded n))) -> o = [AsText n] \/ o = [AsTrace n].
Proof.
  intros lv n streams richs HS HR o. cbn [make_record].
  assert (R : forall x, x = None \/ x = Some n -> In (Some o) (call richs (mkR lv (Some n) None x)) -> o = [AsTrace n]).
  { induction HR as [|[k l] richs Hk HR IH]; intros x Hx; cbn; [tauto|]. cbn in Hk. subst k. destruct (l <=? lv); cbn.
    - intros [H|H]; [congruence|]. apply (IH None); auto.
    - intros [H|H]; [discriminate|]. apply (IH x); auto. }
  induction HS as [|[k l] streams Hk HS IH]; cbn [app]; [intros H; right; apply (R (Some n)); auto|].
  cbn in Hk. subst k. cbn. destruct (l <=? lv); cbn; intros [H|H]; try discriminate; auto. left. congruence.
Qed.

(** Not every handler shows a recorded trace: the file beside the console does not. *)
Theorem C115_every_handler_refuted : exists hs lv n, In (Some []) (call hs (make_record lv (Recorded n))).
Proof. exists [(Rich, 0); (Stream, 0)], 30, 7. cbn. auto. Qed.

Print Assumptions C115_plain_message.
Print Assumptions C115_live.
Print Assumptions C115_recorded.
Print Assumptions C115_all_called.
Print Assumptions C115_order.
Print Assumptions C115_every_handler_refuted.

(** ** Examples *)
Example C115_example : call [(Stream, 0); (Rich, 40); (Plain, 0); (Rich, 0); (Stream, 0)] (make_record 30 (Recorded 7))
    = [Some [AsText 7]; None; Some [AsText 7]; Some [AsText 7]; Some [AsText 7]]
  /\ call [(Stream, 0); (Rich, 0); (Plain, 0); (Rich, 0); (Stream, 0)] (make_record 30 (Recorded 7))
    = [Some [AsText 7]; Some [AsTrace 7]; Some []; Some []; Some []]
  /\ call [(Rich, 0); (Plain, 0); (Stream, 50)] (make_record 30 (Live 7)) = [Some [AsTrace 7]; Some [AsText 7]; None]
  /\ call [(Rich, 0); (Stream, 0)] (make_record 30 NoInfo) = [Some []; Some []].
Proof. repeat split. Qed.
Example C115_example_order : Forall (fun h => fst h = Stream) [(Stream, 10)] /\ Forall (fun h => fst h = Rich) [(Rich, 0)]
  /\ call ([(Stream, 10)] ++ [(Rich, 0)]) (make_record 30 (Recorded 7)) = [Some [AsText 7]; Some [AsTrace 7]].
Proof. repeat constructor. Qed.
Example C115_example_recorded : rich_first (called 30 [(Stream, 0); (Plain, 40); (Rich, 0)]) /\ ~ In Plain (called 30 [(Stream, 0); (Plain, 40); (Rich, 0)]).
Proof. split; [exists [Stream], []; cbn; intuition discriminate|cbn; intuition discriminate]. Qed.
