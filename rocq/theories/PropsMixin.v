(** Programs over model lists and dicts and the methods they inherit: C76, C77. *)
From Coq Require Import List Ascii String Bool Arith ZArith Lia Permutation.
From Verif Require Import Base PosixModel FsModel PathModel SerialModel StoreModel ContainerModel MixinModel StoreExample StoreMount StoreRecord FsProof TargetProof PropsContainer.
From Verif Require PropsRound PropsKeep.
Import ListNotations.
Local Arguments str_eq_dec : simpl never.

(** ** Specification *)
(** What a program sees and leaves when it runs on a Python list, and on a dict in which assigning an existing key moves
    it to the end ([dict_step true]). *)
Inductive list_run : list obj -> prog sop -> res obj -> list obj -> Prop :=
| LRDone l r : list_run l (Done r) r l
| LRDo l o k r l1 r2 l2 : list_step l o r l1 -> list_run l1 (k r) r2 l2 -> list_run l (Do o k) r2 l2.
Inductive dict_run : list (str * obj) -> prog dop -> res obj -> list (str * obj) -> Prop :=
| DRDone d r : dict_run d (Done r) r d
| DRDo d o k r d1 r2 d2 : dict_step true d o r d1 -> dict_run d1 (k r) r2 d2 -> dict_run d (Do o k) r2 d2.
(** A program that puts no records into the container, if it gets none. *)
Definition plain_result (r : res obj) : Prop := match r with Ok v => plain v | Exn _ => True end.
Inductive sane {O} (values : O -> list obj) : prog O -> Prop :=
| SaneDone r : sane values (Done r)
| SaneDo o k : Forall plain (values o) -> (forall r, plain_result r -> sane values (k r)) -> sane values (Do o k).
(** The inherited methods on Python lists. *)
Inductive list_method (same : obj -> obj -> bool) : list obj -> lmethod -> res obj -> list obj -> Prop :=
| LReverse l : list_method same l MReverse (Ok (OAtom ANone)) (rev l)
| LIndex a x b v : (forall y, In y a -> same y v = false) -> same x v = true ->
    list_method same (a ++ x :: b) (MIndex v) (Ok (OAtom (AInt (Z.of_nat (List.length a))))) (a ++ x :: b)
| LIndexE l v : (forall y, In y l -> same y v = false) -> list_method same l (MIndex v) (Exn ValueError) l
| LRemove a x b v : (forall y, In y a -> same y v = false) -> same x v = true ->
    list_method same (a ++ x :: b) (MRemove v) (Ok (OAtom ANone)) (a ++ b)
| LRemoveE l v : (forall y, In y l -> same y v = false) -> list_method same l (MRemove v) (Exn ValueError) l
| LCount l v hits rest : Permutation l (hits ++ rest) -> (forall y, In y hits -> same y v = true) -> (forall y, In y rest -> same y v = false) ->
    list_method same l (MCount v) (Ok (OAtom (AInt (Z.of_nat (List.length hits))))) l
| LContains l v b : (b = true <-> exists y, In y l /\ same y v = true) -> list_method same l (MContains v) (Ok (OAtom (ABool b))) l
| LReversed l : list_method same l MReversed (Ok (OList (rev l))) l.
(** The inherited methods on dicts. *)
Inductive dict_method : list (str * obj) -> dmethod -> res obj -> list (str * obj) -> Prop :=
| DMGet d k v x : In (k, v) d -> dict_method d (MGet k x) (Ok v) d
| DMGetE d k x : ~ In k (map fst d) -> dict_method d (MGet k x) (Ok x) d
| DMIn d k b : (b = true <-> In k (map fst d)) -> dict_method d (MIn k) (Ok (OAtom (ABool b))) d
| DMPop a k v b x : dict_method (a ++ (k, v) :: b) (MPop k x) (Ok v) (a ++ b)
| DMPopE d k x : ~ In k (map fst d) -> dict_method d (MPop k x) (Ok x) d
| DMPopitem k v b : dict_method ((k, v) :: b) MPopitem (Ok (OList [OAtom (AStr k); v])) b
| DMPopitemE : dict_method [] MPopitem (Exn KeyError) []
| DMSetdefault d k v x : In (k, v) d -> dict_method d (MSetdefault k x) (Ok v) d
| DMSetdefaultNew d k x : ~ In k (map fst d) -> dict_method d (MSetdefault k x) (Ok x) (d ++ [(k, x)])
| DMUpdate d ps rs d' : dict_steps true d (map (fun kv => DSet (fst kv) (snd kv)) ps) rs d' -> dict_method d (MUpdate ps) (Ok (OAtom ANone)) d'
| DMItems d : dict_method d MItems (Ok (OList (map (fun kv => OList [OAtom (AStr (fst kv)); snd kv]) d))) d
| DMValues d : dict_method d MValues (Ok (OList (map snd d))) d.
Definition lmethod_values (m : lmethod) : list obj := match m with MIndex v | MRemove v | MCount v | MContains v => [v] | _ => [] end.
Definition dmethod_values (m : dmethod) : list obj :=
  match m with MGet _ v | MPop _ v | MSetdefault _ v => [v] | MUpdate ps => map snd ps | _ => [] end.

(** ** Proofs *)
Lemma step_result l o r l1 : Forall plain l -> list_step l o r l1 -> plain_result r.
Proof.
  intros Hl H. destruct H; cbn; try exact I.
  - rewrite Forall_forall in Hl. apply Hl. eapply nth_error_In; eassumption.
  - rewrite Forall_forall in Hl. apply Hl. apply in_or_app. right. left. reflexivity.
Qed.
Lemma shown_plain items : Forall in_memory items -> Forall plain (map seen items).
Proof. intros H. apply Forall_map. exact H. Qed.
Lemma seq_run_list E n p : sane sop_values p -> forall q s u w, Forall in_memory s ->
  exists r q' s' u', seq_run E n p (q, s, u) w = (Ok (r, (q', s', u')), w) /\ list_run (map seen s) p r (map seen s') /\ Forall in_memory s'.
Proof.
  induction 1 as [r|o k Hv _ IH]; intros q s u w Hs.
  - exists r, q, s, u. split; [reflexivity|]. split; [constructor|assumption].
  - destruct (op_step E n (q, s, u) o w Hs Hv) as (r & [[q1 s1] u1] & H1 & H2 & H3). unfold shown in H3. cbn [fst snd] in H3.
    destruct (IH r (step_result _ _ _ _ (shown_plain s Hs) H3) q1 s1 u1 w H2) as (r2 & q2 & s2 & u2 & H4 & H5 & H6).
    exists r2, q2, s2, u2. cbn [seq_run]. unfold mbind. rewrite H1. cbn [fst snd]. split; [exact H4|]. split; [econstructor; eassumption|assumption].
Qed.
Lemma dstep_result d o r d1 : Forall (fun kv => plain (snd kv)) d -> dict_step true d o r d1 -> plain_result r.
Proof.
  intros Hl H. rewrite Forall_forall in Hl. destruct H; cbn; try exact I.
  - exact (Hl _ H).
  - apply (Hl (k, x)). apply in_or_app. right. left. reflexivity.
Qed.
Lemma map_run_dict E n p : sane dop_values p -> forall q s u w, NoDup (map fst s) -> Forall (fun kv => in_memory (snd kv)) s ->
  exists r q' s' u', map_run E n p (q, s, u) w = (Ok (r, (q', s', u')), w) /\ dict_run (map seen_at s) p r (map seen_at s') /\
    NoDup (map fst s') /\ Forall (fun kv => in_memory (snd kv)) s'.
Proof.
  induction 1 as [r|o k Hv _ IH]; intros q s u w Hn Hs.
  - exists r, q, s, u. split; [reflexivity|]. split; [constructor|split; assumption].
  - destruct (mop_step E n (q, s, u) o w (conj Hn Hs) Hv) as (r & [[q1 s1] u1] & H1 & [H2 H2'] & H3). unfold shownm in H3. cbn [fst snd] in *.
    assert (Hr : plain_result r) by (eapply dstep_result; [|exact H3]; apply Forall_map; exact Hs).
    destruct (IH r Hr q1 s1 u1 w H2 H2') as (r2 & q2 & s2 & u2 & H4 & H5 & H6).
    exists r2, q2, s2, u2. cbn [map_run]. unfold mbind. rewrite H1. cbn [fst snd]. split; [exact H4|]. split; [econstructor; eassumption|assumption].
Qed.
(** *** Python lists *)
Lemma index_pos {A} (l : list A) k j : index_of l (Z.of_nat k) j -> j = k /\ k < List.length l.
Proof. intros H. inversion H; subst; split; lia. Qed.
Lemma get_at l k r l' : list_step l (LGet (Z.of_nat k)) r l' -> l' = l /\ r = match nth_error l k with Some v => Ok v | None => Exn IndexError end.
Proof.
  intros H. inversion H as [? ? j v Hi Hn|? ? Hi| | | | | | | | | | | |]; subst; (split; [reflexivity|]).
  - apply index_pos in Hi as [-> _]. rewrite Hn. reflexivity.
  - match goal with |- context[nth_error ?x k] => destruct (nth_error x k) eqn:Ek end; [|reflexivity]. exfalso. eapply Hi. constructor. apply nth_error_Some. congruence.
Qed.
Lemma set_at l k v r l' : k < List.length l -> list_step l (LSet (Z.of_nat k) v) r l' -> r = Ok (OAtom ANone) /\ l' = set_nth k v l.
Proof.
  intros Hk H. inversion H as [| |a x b ? ? Hi|? ? ? Hi| | | | | | | | | |]; subst.
  - apply index_pos in Hi as [<- _]. rewrite set_nth_app. auto.
  - exfalso. eapply Hi. constructor. exact Hk.
Qed.
Lemma same_front {A} (a : list A) : forall a' b b', a ++ b = a' ++ b' -> List.length a = List.length a' -> a = a' /\ b = b'.
Proof.
  induction a as [|x a IH]; intros [|x' a'] b b' H Hl; cbn in *; try discriminate; [auto|]. injection H as <- H. injection Hl as Hl. destruct (IH _ _ _ H Hl) as [-> ->]. auto.
Qed.
Lemma del_at a x b r l' : list_step (a ++ x :: b) (LDel (Z.of_nat (List.length a))) r l' -> r = Ok (OAtom ANone) /\ l' = a ++ b.
Proof.
  intros H. inversion H as [| | | | |a' x' b' ? Hi Heq|? ? Hi| | | | | | |]; subst.
  - apply index_pos in Hi as [Hl _]. split; [reflexivity|]. apply same_front in Heq as [-> Heq]; [congruence|assumption].
  - exfalso. eapply Hi. constructor. rewrite app_length. cbn. lia.
Qed.
Lemma len_at l r l' : list_step l LLen r l' -> l' = l /\ r = Ok (OAtom (AInt (Z.of_nat (List.length l)))).
Proof. intros H. inversion H. auto. Qed.
Lemma iter_at l r l' : list_step l LIter r l' -> l' = l /\ r = Ok (OList l).
Proof. intros H. inversion H. auto. Qed.
Lemma use_inv l o k r l' : list_run l (use o k) r l' -> exists r1 l1, list_step l o r1 l1 /\ match r1 with Ok v => list_run l1 (k v) r l' | Exn e => r = Exn e /\ l' = l1 end.
Proof.
  intros H. inversion H; subst. eexists _, _. split; [eassumption|]. match goal with H : list_run _ _ _ _ |- match ?x with _ => _ end => destruct x; [exact H|inversion H; auto] end.
Qed.
Lemma use_get l k f r l' : list_run l (use (LGet (Z.of_nat k)) f) r l' ->
  match nth_error l k with Some v => list_run l (f v) r l' | None => r = Exn IndexError /\ l' = l end.
Proof. intros H. apply use_inv in H as (r1 & l1 & H1 & H). apply get_at in H1 as [-> ->]. destruct (nth_error l k); exact H. Qed.
Lemma use_set l k v f r l' : k < List.length l -> list_run l (use (LSet (Z.of_nat k) v) f) r l' -> list_run (set_nth k v l) (f (OAtom ANone)) r l'.
Proof. intros Hk H. apply use_inv in H as (r1 & l1 & H1 & H). apply set_at in H1 as [-> ->]; assumption. Qed.
Lemma nth_rev {A} (l : list A) k : k < List.length l -> nth_error (rev l) k = nth_error l (List.length l - 1 - k).
Proof.
  induction l as [|a l IH]; cbn [List.length rev]; intros Hk; [lia|].
  destruct (Nat.eq_dec k (List.length l)) as [->|Hne].
  - rewrite nth_error_app2 by (rewrite rev_length; lia). rewrite rev_length, Nat.sub_diag. replace (S (List.length l) - 1 - List.length l) with 0 by lia. reflexivity.
  - rewrite nth_error_app1 by (rewrite rev_length; lia). rewrite IH by lia. replace (S (List.length l) - 1 - k) with (S (List.length l - 1 - k)) by lia. reflexivity.
Qed.
Lemma by_nth {A} (l : list A) : forall l', (forall k, nth_error l k = nth_error l' k) -> l = l'.
Proof.
  induction l as [|x l IH]; intros [|x' l'] H; [reflexivity|discriminate (H 0)|discriminate (H 0)|]. pose proof (H 0) as H0. cbn in H0. injection H0 as ->. f_equal. apply IH. intros k. exact (H (S k)).
Qed.
Lemma swap_all len : forall more i l r l', List.length l = len -> i + more = len / 2 -> list_run l (swap_from len more i) r l' ->
  r = Ok (OAtom ANone) /\ forall k, nth_error l' k = if (i <=? k) && (k <? len - i) then nth_error l (len - 1 - k) else nth_error l k.
Proof.
  induction more as [|more IH]; intros i l r l' Hl Hi H; cbn [swap_from] in H; pose proof (Nat.div_mod len 2 ltac:(lia)) as Hd; pose proof (Nat.mod_upper_bound len 2 ltac:(lia)) as Hm.
  - inversion H; subst. split; [reflexivity|]. intros k. destruct (Nat.leb_spec i k); destruct (Nat.ltb_spec k (List.length l' - i)); cbn [andb]; try reflexivity.
    f_equal. lia.
  - assert (H1 : i < len) by lia. assert (H2 : len - i - 1 < len) by lia. assert (H3 : i < len - i - 1) by lia.
    apply use_get in H. destruct (nth_error l (len - i - 1)) as [x|] eqn:Ex; [|apply nth_error_None in Ex; lia].
    apply use_get in H. destruct (nth_error l i) as [y|] eqn:Ey; [|apply nth_error_None in Ey; lia].
    apply use_set in H; [|lia]. apply use_set in H; [|rewrite set_nth_length; lia].
    apply IH in H as [-> H]; [|rewrite !set_nth_length; assumption|lia]. split; [reflexivity|]. intros k. rewrite H, !nth_set_nth, Ex, Ey.
    destruct (Nat.leb_spec (S i) k); destruct (Nat.ltb_spec k (len - S i)); cbn [andb]; repeat match goal with |- context[Nat.eq_dec ?a ?b] => destruct (Nat.eq_dec a b) end;
      repeat match goal with |- context[?a <=? ?b] => destruct (Nat.leb_spec a b) end; repeat match goal with |- context[?a <? ?b] => destruct (Nat.ltb_spec a b) end; cbn [andb];
      try lia; try reflexivity; try (rewrite Ex; try reflexivity); try (rewrite Ey; try reflexivity); try (rewrite <- Ex; f_equal; lia); try (rewrite <- Ey; f_equal; lia).
Qed.
Lemma search_run same v found r l' : forall b a fuel, (forall y, In y a -> same y v = false) -> List.length b < fuel ->
  list_run (a ++ b) (search same v fuel (List.length a) found) r l' ->
  (exists c x d, a ++ b = c ++ x :: d /\ (forall y, In y c -> same y v = false) /\ same x v = true /\ list_run (a ++ b) (found (List.length c)) r l') \/
  ((forall y, In y (a ++ b) -> same y v = false) /\ r = Exn ValueError /\ l' = a ++ b).
Proof.
  induction b as [|x b IH]; intros a fuel Ha Hf H; (destruct fuel as [|fuel]; [lia|]); cbn [search] in H; inversion H as [|? ? ? r1 l1 ? ? H1 H2]; subst; apply get_at in H1 as [-> ->].
  - rewrite nth_error_app2, Nat.sub_diag in H2 by lia. cbn [nth_error] in H2. inversion H2; subst. right. rewrite app_nil_r. auto.
  - rewrite nth_error_app2, Nat.sub_diag in H2 by lia. cbn [nth_error] in H2. destruct (same x v) eqn:Es.
    + left. exists a, x, b. auto.
    + cbn in Hf. replace (a ++ x :: b) with ((a ++ [x]) ++ b) in * by (rewrite <- app_assoc; reflexivity).
      replace (S (List.length a)) with (List.length (a ++ [x])) in H2 by (rewrite app_length; cbn; lia).
      apply IH in H2; [exact H2| |lia]. intros y Hy. apply in_app_or in Hy as [Hy|[<-|[]]]; auto.
Qed.
Lemma front {A} (a b : list A) : firstn (List.length a) (a ++ b) = a.
Proof. rewrite firstn_app, Nat.sub_diag, firstn_all. cbn [firstn]. apply app_nil_r. Qed.
Lemma down_run l r l' : forall i got, i <= List.length l -> list_run l (down_from i got) r l' -> r = Ok (OList (got ++ rev (firstn i l))) /\ l' = l.
Proof.
  induction i as [|i IH]; intros got Hi H; cbn [down_from] in H.
  - inversion H; subst. cbn. rewrite app_nil_r. auto.
  - apply use_get in H. destruct (nth_error l i) as [v|] eqn:Ev; [|apply nth_error_None in Ev; lia]. apply IH in H as [-> ->]; [|lia]. split; [|reflexivity].
    do 2 f_equal. apply nth_error_split in Ev as (a & b & -> & <-). rewrite front.
    assert (Hf : firstn (S (List.length a)) (a ++ v :: b) = a ++ [v]).
    { replace (S (List.length a)) with (List.length (a ++ [v])) by (rewrite app_length; cbn; lia). replace (a ++ v :: b) with ((a ++ [v]) ++ b) by (rewrite <- app_assoc; reflexivity). apply front. }
    rewrite Hf, rev_app_distr, <- app_assoc. reflexivity.
Qed.
Lemma filter_perm {A} (f : A -> bool) l : Permutation l (filter f l ++ filter (fun x => negb (f x)) l).
Proof.
  induction l as [|x l IH]; cbn; [constructor|]. destruct (f x); cbn; [constructor; assumption|]. etransitivity; [apply perm_skip; exact IH|]. apply Permutation_middle.
Qed.
Lemma method_list same fuel m l r l' : List.length l < fuel -> list_run l (list_prog same fuel m) r l' -> list_method same l m r l'.
Proof.
  intros Hf H. destruct m as [|v|v|v|v|]; cbn [list_prog] in H.
  - apply use_inv in H as (r1 & l1 & H1 & H). apply len_at in H1 as [-> ->]. rewrite Nat2Z.id in H. apply swap_all in H as [-> H]; [|reflexivity|reflexivity].
    replace l' with (rev l); [constructor|]. apply by_nth. intros k. rewrite H. cbn [Nat.leb andb]. rewrite Nat.sub_0_r. destruct (Nat.ltb_spec k (List.length l)).
    + apply nth_rev. assumption.
    + replace (nth_error l k) with (@None obj) by (symmetry; apply nth_error_None; lia). apply nth_error_None. rewrite rev_length. lia.
  - apply (search_run same v _ r l' l []) in H; [|intros y []|assumption]. cbn [app] in H. destruct H as [(c & x & d & -> & H1 & H2 & H)|(H1 & -> & ->)]; [|constructor; assumption].
    inversion H; subst. constructor; assumption.
  - apply (search_run same v _ r l' l []) in H; [|intros y []|assumption]. cbn [app] in H. destruct H as [(c & x & d & -> & H1 & H2 & H)|(H1 & -> & ->)]; [|constructor; assumption].
    apply use_inv in H as (r1 & l1 & H3 & H). apply del_at in H3 as [-> ->]. inversion H; subst. econstructor; eassumption.
  - apply use_inv in H as (r1 & l1 & H1 & H). apply iter_at in H1 as [-> ->]. inversion H; subst.
    eapply LCount; [apply filter_perm| |]; intros y Hy; apply filter_In in Hy as [_ Hy]; [exact Hy|]. destruct (same y v); [discriminate|reflexivity].
  - apply use_inv in H as (r1 & l1 & H1 & H). apply iter_at in H1 as [-> ->]. inversion H; subst. constructor. apply existsb_exists.
  - apply use_inv in H as (r1 & l1 & H1 & H). apply len_at in H1 as [-> ->]. rewrite Nat2Z.id in H. apply down_run in H as [-> ->]; [|lia]. rewrite firstn_all. constructor.
Qed.
Lemma sane_use {O} (values : O -> list obj) o k : Forall plain (values o) -> (forall v, plain v -> sane values (k v)) -> sane values (use o k).
Proof. intros H1 H2. constructor; [assumption|]. intros [v|e] Hr; [apply H2, Hr|constructor]. Qed.
Lemma sane_list same fuel m : sane sop_values (list_prog same fuel m).
Proof.
  assert (Hs : forall v f i found, (forall j, sane sop_values (found j)) -> sane sop_values (search same v f i found)).
  { intros v f. induction f as [|f IH]; intros i found Hfo; cbn [search]; [constructor|]. constructor; [constructor|]. intros [x|e] Hr; [destruct (same x v); auto|]. destruct e; constructor. }
  destruct m as [|v|v|v|v|]; cbn [list_prog].
  - apply sane_use; [constructor|]. intros v _. destruct v as [[]| | | | | | | | | |]; try constructor. generalize (Z.to_nat z / 2) as more. generalize (Z.to_nat z) as len.
    intros len more. generalize 0 as i. induction more as [|more IH]; intros i; cbn [swap_from]; [constructor|].
    apply sane_use; [constructor|]. intros x Hx. apply sane_use; [constructor|]. intros y Hy. apply sane_use; [repeat constructor; assumption|]. intros _ _. apply sane_use; [repeat constructor; assumption|]. intros _ _. apply IH.
  - apply Hs. intros j. constructor.
  - apply Hs. intros j. apply sane_use; [constructor|]. intros; constructor.
  - apply sane_use; [constructor|]. intros x _. destruct x; constructor.
  - apply sane_use; [constructor|]. intros x _. destruct x; constructor.
  - apply sane_use; [constructor|]. intros v _. destruct v as [[]| | | | | | | | | |]; try constructor. generalize (@nil obj) as got. generalize (Z.to_nat z) as i. induction i as [|i IH]; intros got; cbn [down_from]; [constructor|].
    apply sane_use; [constructor|]. intros; apply IH.
Qed.
(** *** Dicts *)
Lemma duse_inv d o k r d' : dict_run d (use o k) r d' -> exists r1 d1, dict_step true d o r1 d1 /\ match r1 with Ok v => dict_run d1 (k v) r d' | Exn e => r = Exn e /\ d' = d1 end.
Proof.
  intros H. inversion H; subst. eexists _, _. split; [eassumption|]. match goal with H : dict_run _ _ _ _ |- match ?x with _ => _ end => destruct x; [exact H|inversion H; auto] end.
Qed.
Lemma lookup_inv d k missing found r d' : dict_run d (lookup_or k missing found) r d' ->
  (exists v, In (k, v) d /\ dict_run d (found v) r d') \/ (~ In k (map fst d) /\ dict_run d missing r d').
Proof. intros H. inversion H as [|? ? ? r1 d1 ? ? H1 H2]; subst. inversion H1; subst; [left; eauto|right; auto]. Qed.
Lemma one_value (d : list (str * obj)) k v v' : NoDup (map fst d) -> In (k, v) d -> In (k, v') d -> v = v'.
Proof.
  induction d as [|[x y] d IH]; cbn; [intros _ []|]. intros Hn Hi Hj. inversion Hn as [|? ? Hx Hn']; subst.
  destruct Hi as [Hi|Hi], Hj as [Hj|Hj]; [congruence| | |auto].
  - injection Hi as -> ->. exfalso. apply Hx. apply (in_map fst) in Hj. exact Hj.
  - injection Hj as -> ->. exfalso. apply Hx. apply (in_map fst) in Hi. exact Hi.
Qed.
Lemma get_in d k v r d' f : In (k, v) d -> NoDup (map fst d) -> dict_run d (use (DGet k) f) r d' -> dict_run d (f v) r d'.
Proof.
  intros Hi Hn H. apply duse_inv in H as (r1 & d1 & H1 & H). inversion H1 as [? ? v1 Hv|? ? Hv| | | | | | | | |]; subst.
  - rewrite (one_value _ _ _ _ Hn Hi Hv). assumption.
  - exfalso. apply Hv. apply (in_map fst) in Hi. exact Hi.
Qed.
Lemma split_key (a : list (str * obj)) : forall k x b a' x' b', NoDup (map fst (a ++ (k, x) :: b)) -> a ++ (k, x) :: b = a' ++ (k, x') :: b' -> a = a' /\ x = x' /\ b = b'.
Proof.
  induction a as [|[y z] a IH]; intros k x b [|[y' z'] a'] x' b' Hn H; cbn in *.
  - injection H as <- <-. auto.
  - injection H as <- <- ->. exfalso. inversion Hn as [|? ? Hx _]; subst. apply Hx. rewrite map_app. apply in_or_app. right. left. reflexivity.
  - injection H as -> -> H. exfalso. inversion Hn as [|? ? Hx _]; subst. apply Hx. rewrite map_app. apply in_or_app. right. left. reflexivity.
  - injection H as <- <- H. inversion Hn; subst. destruct (IH _ _ _ _ _ _ H3 H) as (-> & -> & ->). auto.
Qed.
Lemma del_in a k v b r d' f : NoDup (map fst (a ++ (k, v) :: b)) -> dict_run (a ++ (k, v) :: b) (use (DDel k) f) r d' -> dict_run (a ++ b) (f (OAtom ANone)) r d'.
Proof.
  intros Hn H. apply duse_inv in H as (r1 & d1 & H1 & H). inversion H1 as [| | | |a' ? x' b' Heq|? ? Hv| | | | |]; subst.
  - symmetry in Heq. destruct (split_key _ _ _ _ _ _ _ Hn Heq) as (-> & _ & ->). assumption.
  - exfalso. apply Hv. rewrite map_app. apply in_or_app. right. left. reflexivity.
Qed.
Lemma each_run one d r d' : NoDup (map fst d) -> forall b a got, d = a ++ b ->
  dict_run d (each_key one (map (fun kv => OAtom (AStr (fst kv))) b) got) r d' -> r = Ok (OList (got ++ map (fun kv => one (fst kv) (snd kv)) b)) /\ d' = d.
Proof.
  intros Hn. induction b as [|[k v] b IH]; intros a got Hd H; cbn [each_key map] in H.
  - inversion H; subst. cbn. rewrite app_nil_r. auto.
  - cbn [fst] in H. eapply get_in in H; [|rewrite Hd; apply in_or_app; right; left; reflexivity|assumption].
    eapply (IH (a ++ [(k, v)])) in H as [-> ->]; [|rewrite <- app_assoc; exact Hd]. rewrite <- app_assoc. auto.
Qed.
Lemma keys_inv d f r d' : dict_run d (over_keys f) r d' -> dict_run d (f (map (fun kv => OAtom (AStr (fst kv))) d)) r d'.
Proof. intros H. apply duse_inv in H as (r1 & d1 & H1 & H). inversion H1; subst. assumption. Qed.
Lemma method_dict m d r d' : NoDup (map fst d) -> dict_run d (dict_prog m) r d' -> dict_method d m r d'.
Proof.
  intros Hn H. destruct m as [k x|k|k x| |k x|ps| |]; cbn [dict_prog] in H.
  - apply lookup_inv in H as [(v & Hv & H)|(Hv & H)]; inversion H; subst; constructor; assumption.
  - apply lookup_inv in H as [(v & Hv & H)|(Hv & H)]; inversion H; subst; constructor; split; intros Hx; try reflexivity; try discriminate; try contradiction. apply (in_map fst) in Hv. exact Hv.
  - apply lookup_inv in H as [(v & Hv & H)|(Hv & H)]; [|inversion H; subst; constructor; assumption].
    apply in_split in Hv as (a & b & ->). apply del_in in H; [|assumption]. inversion H; subst. constructor.
  - apply keys_inv in H. destruct d as [|[k v] d]; cbn [map fst] in H; [inversion H; subst; constructor|].
    eapply get_in in H; [|left; reflexivity|assumption]. apply (del_in []) in H; [|assumption]. inversion H; subst. constructor.
  - apply lookup_inv in H as [(v & Hv & H)|(Hv & H)]; [inversion H; subst; constructor; assumption|].
    apply duse_inv in H as (r1 & d1 & H1 & H). inversion H1 as [| |? ? ? Hv'|a ? y b ?| | | | | | |]; subst.
    + inversion H; subst. constructor. assumption.
    + exfalso. apply Hv. rewrite map_app. apply in_or_app. right. left. reflexivity.
  - assert (G : forall d, dict_run d (p_update ps) r d' -> r = Ok (OAtom ANone) /\ exists rs, dict_steps true d (map (fun kv => DSet (fst kv) (snd kv)) ps) rs d').
    { clear. induction ps as [|[k v] ps IH]; intros d H; cbn [p_update map] in *; [inversion H; subst; split; [reflexivity|]; eexists; constructor|].
      apply duse_inv in H as (r1 & d1 & H1 & H). assert (Hr : r1 = Ok (OAtom ANone)) by (inversion H1; reflexivity). subst r1. apply IH in H as (-> & rs & H). split; [reflexivity|]. eexists. econstructor; eassumption. }
    apply G in H as (-> & rs & H). econstructor. eassumption.
  - apply keys_inv in H. apply (each_run _ _ _ _ Hn d []) in H as [-> ->]; [|reflexivity]. constructor.
  - apply keys_inv in H. apply (each_run _ _ _ _ Hn d []) in H as [-> ->]; [|reflexivity]. constructor.
Qed.
Lemma sane_dict m : Forall plain (dmethod_values m) -> sane dop_values (dict_prog m).
Proof.
  assert (Hl : forall k missing found, sane dop_values missing -> (forall v, sane dop_values (found v)) -> sane dop_values (lookup_or k missing found)).
  { intros k missing found H1 H2. constructor; [constructor|]. intros [v|e] _; [apply H2|destruct e; try constructor; assumption]. }
  assert (He : forall one ks got, sane dop_values (each_key one ks got)).
  { intros one ks. induction ks as [|[[]| | | | | | | | | |] ks IH]; intros got; cbn [each_key]; try constructor; [constructor|]. intros [v|e] _; [apply IH|constructor]. }
  intros Hv. destruct m as [k x|k|k x| |k x|ps| |]; cbn [dict_prog dmethod_values] in *.
  - apply Hl; intros; constructor.
  - apply Hl; intros; constructor.
  - apply Hl; intros; [constructor|]. apply sane_use; [constructor|intros; constructor].
  - apply sane_use; [constructor|]. intros [| | | | | | | | | |] _; try constructor. destruct l as [|[[]| | | | | | | | | |] l]; try constructor; [constructor|].
    intros [v|e] _; [|constructor]. apply sane_use; [constructor|intros; constructor].
  - inversion Hv; subst. apply Hl; intros; [|constructor]. apply sane_use; [repeat constructor; assumption|intros; constructor].
  - induction ps as [|[k v] ps IH]; cbn [p_update]; [constructor|]. inversion Hv; subst. apply sane_use; [repeat constructor; assumption|]. intros _ _. auto.
  - apply sane_use; [constructor|]. intros [| | | | | | | | | |] _; try constructor. apply He.
  - apply sane_use; [constructor|]. intros [| | | | | | | | | |] _; try constructor. apply He.
Qed.

(** ** C76 *)
(** Any program that uses a list whose items are in memory, and decides what to do next by the results it gets, computes
    what it computes with a Python list, and touches no file. *)
Theorem C76_any_program : forall E n p q items unused w,
  sane sop_values p -> Forall in_memory items ->
  exists result q' items' unused',
    seq_run E n p (q, items, unused) w = (Ok (result, (q', items', unused')), w) /\
    list_run (map seen items) p result (map seen items') /\ Forall in_memory items'.
Proof. intros E n p q items unused w Hp Hi. exact (seq_run_list E n p Hp q items unused w Hi). Qed.
(** So do the methods the list inherits. *)
Theorem C76_inherited_methods : forall E n same fuel m q items unused w,
  Forall in_memory items -> List.length items < fuel ->
  exists result q' items' unused',
    seq_run E n (list_prog same fuel m) (q, items, unused) w = (Ok (result, (q', items', unused')), w) /\
    list_method same (map seen items) m result (map seen items') /\ Forall in_memory items'.
Proof.
  intros E n same fuel m q items unused w Hi Hf. destruct (seq_run_list E n _ (sane_list same fuel m) q items unused w Hi) as (r & q' & s' & u' & H1 & H2 & H3).
  exists r, q', s', u'. split; [exact H1|]. split; [|exact H3]. apply method_list in H2; [exact H2|]. rewrite map_length. exact Hf.
Qed.
(** ** C77 *)
(** The same for dicts, where assigning an existing key moves it to the end (C38). *)
Theorem C77_any_program : forall E n p q items unused w,
  sane dop_values p -> NoDup (map fst items) -> Forall (fun kv => in_memory (snd kv)) items ->
  exists result q' items' unused',
    map_run E n p (q, items, unused) w = (Ok (result, (q', items', unused')), w) /\
    dict_run (map seen_at items) p result (map seen_at items') /\ NoDup (map fst items') /\ Forall (fun kv => in_memory (snd kv)) items'.
Proof. intros E n p q items unused w Hp Hn Hi. exact (map_run_dict E n p Hp q items unused w Hn Hi). Qed.
Theorem C77_inherited_methods : forall E n m q items unused w,
  Forall plain (dmethod_values m) -> NoDup (map fst items) -> Forall (fun kv => in_memory (snd kv)) items ->
  exists result q' items' unused',
    map_run E n (dict_prog m) (q, items, unused) w = (Ok (result, (q', items', unused')), w) /\
    dict_method (map seen_at items) m result (map seen_at items') /\ NoDup (map fst items') /\ Forall (fun kv => in_memory (snd kv)) items'.
Proof.
  intros E n m q items unused w Hv Hn Hi. destruct (map_run_dict E n _ (sane_dict m Hv) q items unused w Hn Hi) as (r & q' & s' & u' & H1 & H2 & H3).
  exists r, q', s', u'. split; [exact H1|]. split; [|exact H3]. apply method_dict in H2; [exact H2|]. rewrite keys_seen. exact Hn.
Qed.
(** [popitem] is the exception: a Python dict gives its last item, this one its first. *)
Inductive python_popitem : list (str * obj) -> res obj -> list (str * obj) -> Prop :=
| PyPopitem a k v : python_popitem (a ++ [(k, v)]) (Ok (OList [OAtom (AStr k); v])) a
| PyPopitemE : python_popitem [] (Exn KeyError) [].
Lemma last_not_first k v (b : list (str * obj)) d : NoDup (map fst ((k, v) :: b)) -> 1 <= List.length b -> ~ python_popitem ((k, v) :: b) (Ok (pair_of k v)) d.
Proof.
  intros Hn Hl Hp. remember ((k, v) :: b) as x eqn:Ex. remember (Ok (pair_of k v)) as r eqn:Er. destruct Hp as [a k' v'|]; [|discriminate].
  unfold pair_of in Er. injection Er as -> ->. destruct a as [|y a]; cbn [app] in Ex; [injection Ex as <-; cbn in Hl; lia|]. injection Ex as -> <-.
  cbn [map fst app] in Hn. inversion Hn as [|? ? Hx _]. apply Hx. rewrite map_app. apply in_or_app. right. left. reflexivity.
Qed.
Theorem C77_popitem_differs : forall E n q items unused w result q' items' unused' w',
  NoDup (map fst items) -> Forall (fun kv => in_memory (snd kv)) items -> 2 <= List.length items ->
  map_run E n (dict_prog MPopitem) (q, items, unused) w = (Ok (result, (q', items', unused')), w') ->
  ~ python_popitem (map seen_at items) result (map seen_at items').
Proof.
  intros E n q items unused w result q' items' unused' w' Hn Hi Hl H Hp.
  destruct (C77_inherited_methods E n MPopitem q items unused w (Forall_nil _) Hn Hi) as (r & q1 & s1 & u1 & H1 & H2 & _). rewrite H1 in H. injection H as <- <- <- <- <-.
  rewrite <- (map_length seen_at) in Hl. rewrite <- keys_seen in Hn. inversion H2 as [| | | | |k v b Hb| | | | | |]; subst; [|rewrite <- H in Hl; cbn in Hl; lia].
  rewrite <- Hb in *. eapply last_not_first; [exact Hn|cbn in Hl; lia|exact Hp].
Qed.
(** A membership test reads the item: it does to disk and dict what a lookup does. *)
Theorem C77_in_loads : forall E n k st w r st' w',
  map_op E n st (DGet k) w = (Ok (r, st'), w') ->
  map_run E n (dict_prog (MIn k)) st w = (Ok (Ok (OAtom (ABool (match r with Ok _ => true | Exn _ => false end))), st'), w').
Proof.
  intros E n k st w r st' w' H. cbn [dict_prog lookup_or map_run]. unfold mbind. rewrite H. cbn [fst snd]. destruct r as [v|e]; [reflexivity|].
  assert (e = KeyError) as ->; [|reflexivity]. cbn [map_op] in H. destruct st as [[p s] u]. unfold map_get in H. destruct (assoc k s) as [o|]; [|unfold ret in H; congruence].
  apply mbind_ok in H as (x & w1 & _ & H). unfold ret in H. congruence.
Qed.

(** ** Examples *)
Definition mx_same (x y : obj) : bool :=
  match x, y with OLeaf _ a, OLeaf _ b => if str_eq_dec a b then true else false | OAtom (AInt a), OAtom (AInt b) => (a =? b)%Z | _, _ => false end.
(** Take out the largest of the first two items, then append what is left in front: the items decide. *)
Definition mx_prog : prog sop :=
  use (LGet 0) (fun x => use (LGet 1) (fun y =>
    match x, y with
    | OAtom (AInt a), OAtom (AInt b) => if (a <? b)%Z then use (LPop 1) (fun v => use (LAppend v) (fun _ => none)) else use (LPop 0) (fun v => use (LAppend v) (fun _ => none))
    | OAtom (AInt a), OLeaf c d => use (LSet 0 (OLeaf c d)) (fun _ => use (LDel 1) (fun _ => none))
    | _, _ => none
    end)).
Example C76_example :
  Forall in_memory ex_items /\ sane sop_values mx_prog /\
  forall w, exists st st2,
    seq_run (ex_env "auto" false None) 3 mx_prog (mkSeq false [] false None, ex_items, []) w = (Ok (Ok (OAtom ANone), st), w) /\
    map seen (snd (fst st)) = [OLeaf 0 ($"a"); OAtom (AInt 3)] /\
    seq_run (ex_env "auto" false None) 3 (list_prog mx_same 9 MReverse) (mkSeq false [] false None, ex_items, []) w = (Ok (Ok (OAtom ANone), st2), w) /\
    map seen (snd (fst st2)) = rev (map seen ex_items) /\
    exists st3, seq_run (ex_env "auto" false None) 3 (list_prog mx_same 9 (MIndex (OAtom (AInt 3)))) (mkSeq false [] false None, ex_items, []) w = (Ok (Ok (OAtom (AInt 2)), st3), w).
Proof.
  split; [repeat constructor|]. split.
  - unfold mx_prog. apply sane_use; [constructor|]. intros x Hx. apply sane_use; [constructor|]. intros y Hy. destruct x as [[]| | | | | | | | | |]; try constructor.
    destruct y as [[| |z0| |]| | | c d| | | | | | |]; try (apply SaneDone).
    + destruct (z <? z0)%Z; (apply sane_use; [constructor|intros v Hv; apply sane_use; [repeat constructor; assumption|intros; constructor]]).
    + apply sane_use; [repeat constructor|]. intros. apply sane_use; [constructor|]. intros; constructor.
  - intros w. eexists. eexists. split; [reflexivity|]. split; [reflexivity|]. split; [reflexivity|]. split; [reflexivity|]. eexists. reflexivity.
Qed.
Example C77_example :
  NoDup (map fst ex_entries) /\ Forall (fun kv => in_memory (snd kv)) ex_entries /\ 2 <= List.length ex_entries /\
  forall w, exists st st2,
    map_run (ex_env "auto" false None) 3 (dict_prog MPopitem) (mkMap false [] false false false, ex_entries, []) w = (Ok (Ok (OList [OAtom (AStr ($"a")); OAtom (AInt 1)]), st), w) /\
    map_run (ex_env "auto" false None) 3 (dict_prog (MUpdate [($"a", OAtom (AInt 2)); ($"c", OLeaf 0 ($"y"))])) (mkMap false [] false false false, ex_entries, []) w = (Ok (Ok (OAtom ANone), st2), w) /\
    map seen_at (snd (fst st2)) = [($"b", OLeaf 0 ($"x")); ($"a", OAtom (AInt 2)); ($"c", OLeaf 0 ($"y"))].
Proof.
  split; [repeat constructor; cbn; intros H; repeat destruct H as [H|H]; try discriminate; contradiction|]. split; [repeat constructor|]. split; [cbn; lia|].
  intros w. eexists. eexists. split; [reflexivity|]. split; reflexivity.
Qed.
(** A dict that was loaded: asking whether a key is there reads the file. *)
Example C77_in_example :
  let w := PropsKeep.kp_world in let E := PropsRound.rt_env in
  exists st w', map_run E 9 (dict_prog (MIn ($"x"))) (mkMap false [] false false false, [($"x", PropsKeep.kp_waiting "_sto__blob" "uuid0.bin")], []) w = (Ok (Ok (OAtom (ABool true)), st), w') /\
    List.length (filter (fun ev => match ev with EvRead _ => true | _ => false end) (w_log w')) = S (List.length (filter (fun ev => match ev with EvRead _ => true | _ => false end) (w_log w))).
Proof.
  cbv zeta. let v := eval vm_compute in (map_run PropsRound.rt_env 9 (dict_prog (MIn ($"x"))) (mkMap false [] false false false, [($"x", PropsKeep.kp_waiting "_sto__blob" "uuid0.bin")], []) PropsKeep.kp_world) in
  match v with (Ok (_, ?st), ?w') => exists st, w' end. split; vm_compute; reflexivity.
Qed.

Print Assumptions C76_any_program.
Print Assumptions C76_inherited_methods.
Print Assumptions C77_any_program.
Print Assumptions C77_inherited_methods.
Print Assumptions C77_popitem_differs.
Print Assumptions C77_in_loads.
