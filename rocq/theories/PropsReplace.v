(** Assigning over an item that holds a stored container: C67. *)
From Coq Require Import List Ascii String Bool Arith ZArith Lia.
From Coq Require Permutation.
From Verif Require SerialMore.
From Verif Require Import Base PosixModel FsModel PathModel SerialModel StoreModel ContainerModel PropsContainer StoreFrame StoreMount StoreSpec StoreLocal StorePlace
     StoreRecord StoreSave StoreEvents StoreExample SerialSpec SerialProof RoundSpec KeepSpec RoundProof ReplayProof CleanProof DropProof DropSettled KeepProof ContextProof KeepSave PathSpec MountSpec DirSpec
     PosixProof FsProof DirProof TargetProof MountProof HistoryProof PathFacts PropsStore PropsRepo PropsRound PropsKeep PropsDelete.
Import ListNotations.

Local Arguments str_eq_dec : simpl never.
Local Arguments atom_eq_dec : simpl never.

Lemma holds_two_mono (UM UC VM VC : list str -> list obj -> Prop) E w dir : (forall cs u, UM cs u -> VM cs u) -> (forall cs u, UC cs u -> VC cs u) ->
  forall comps o, holds_two UM UC E w dir comps o -> holds_two VM VC E w dir comps o.
Proof.
  intros HUV1 HUV2. fix IH 3. intros comps o H.
  destruct H as [comps a|comps l Hl|comps d Hd Hn|comps c d j ext ty Hk Hs|comps c fs u fds Hk Hn Hu Hf|comps q s u Hu Hi|comps p s u Hu Hi Hn|comps content t pre Hc Ho|comps ty path cx t pre Hp Hx].
  - constructor.
  - constructor. intros x Hx. apply IH. auto.
  - constructor; [|assumption]. intros k x Hx. destruct (Hd k x Hx) as [H1 H2]. split; [assumption|]. apply IH. exact H2.
  - econstructor; eassumption.
  - econstructor; [eassumption|assumption|auto|]. intros f v H1 H2 H3. destruct (Hf f v H1 H2 H3) as [H5 H4]. split; [|assumption]. apply IH. exact H5.
  - constructor; [auto|]. intros x Hx. apply IH. auto.
  - constructor; [auto| |assumption]. intros k x Hx. apply IH. eauto.
  - constructor; [|assumption]. intros sd Hsd. apply IH. auto.
  - constructor; assumption.
Qed.
Lemma holds_mono (U V : list str -> list obj -> Prop) E w dir : (forall cs u, U cs u -> V cs u) ->
  forall comps o, holds_with U E w dir comps o -> holds_with V E w dir comps o.
Proof. intros HUV. apply holds_two_mono; assumption. Qed.
(** Nothing waits to be removed in a model without deletions. *)
Lemma holds_none (R : list str -> list obj -> list str -> Prop) E w dir comps o q : (forall cs f, ~ R cs [] f) ->
  holds E w dir comps o -> ~ deleted_with R E comps o q.
Proof.
  unfold holds. intros HR H Hd. revert H. induction Hd as [comps l x q Hx Hd IH|comps d k x q Hx Hd IH|comps c fs u fds f v q Hk Hf Hno Ha Hd IH|comps q0 s u x q Hx Hd IH
    |comps p s u k x q Hx Hd IH|comps content t pre we re q Hd IH|comps c fs u q Hr|comps p s u q Hr|comps p s u q Hr]; intros H; inversion H; subst; eauto.
  - eapply IH. match goal with G : context [exists s0, _ = AStr s0 /\ _] |- _ => apply (G k x Hx) end.
  - match goal with G : k_kind _ = SModel ?f2 |- _ => rewrite Hk in G; injection G as <- end.
    eapply IH. match goal with G : context [mf_default] |- _ => apply (G f v Hf Hno Ha) end.
  - apply IH. unfold sub_of. match goal with G : context [named_component] |- _ => apply G end. destruct (t_subdir t); auto.
  - inversion Hd.
  - eapply HR. eassumption.
  - eapply HR. eassumption.
  - eapply HR. eassumption.
Qed.
(** The files of a container in another sub directory. *)
Lemma files_shift E comps o q : files_of E comps o q -> exists g, q = comps ++ g /\ forall comps', files_of E comps' o (comps' ++ g).
Proof.
  induction 1 as [comps l x q Hx H (g & -> & IH)|comps d k x q Hx H (g & -> & IH)|comps c fs u fds f v q Hk Hf Hno Ha H (g & -> & IH)|comps p s u x q Hx H (g & -> & IH)
    |comps p s u k x q Hx H (g & -> & IH)|comps content t pre we re cs Hp|comps content t pre we re q H (g & -> & IH)].
  - exists g. split; [reflexivity|]. intros c'. econstructor; eauto.
  - exists g. split; [reflexivity|]. intros c'. econstructor; eauto.
  - exists g. split; [reflexivity|]. intros c'. econstructor; eauto.
  - exists g. split; [reflexivity|]. intros c'. econstructor; eauto.
  - exists g. split; [reflexivity|]. intros c'. econstructor; eauto.
  - exists cs. split; [reflexivity|]. intros c'. constructor. assumption.
  - exists (sub_of t ++ g). split; [rewrite app_assoc; reflexivity|]. intros c'. apply fo_content. rewrite app_assoc. apply IH.
Qed.
Lemma files_relative E comps o g : files_of E comps o (comps ++ g) <-> files_of E [] o g.
Proof.
  split; intros H; apply files_shift in H as (g' & Hg & H).
  - apply app_inv_head in Hg. subst g'. exact (H []).
  - cbn in Hg. subst g'. apply H.
Qed.

(** Assigning a storable over a record whose content is a container in memory. *)
Lemma over_record E N content t pre v w : s_clean E = true -> is_storable E v = true -> is_removable content = true ->
  over E N (ORec content t pre None None) v w = (Ok (ORec v t pre None None, [content]), w).
Proof.
  intros Hc Hs Hr. unfold over. rewrite Hs, Hc. unfold mbind, content_of, rec_load. destruct content; try discriminate; reflexivity.
Qed.

(** What is saved after such an assignment; [others] are the other items. *)
Lemma replaced_save E n p k o content w o' j w' : 
  absolute (s_cwd E) -> absolute (o_base p) -> registered_classes E -> ordinary_uuids E -> faithful_methods E ->
  reads_determined E -> plain_defaults E ->
  s_retouch E = $"auto" \/ s_retouch E = $"quit" -> s_validate E = true -> s_clean E = true ->
  plain k -> k <> $".gitignore" -> well_formed (w_fs w) ->
  holds_settled E w (key_dir p k) [] o -> (forall q, discarded E [] o q <-> files_of E [] content q) ->
  save E n p k o w = (Ok (o', j), w') ->
  let dir := location (s_cwd E) (key_dir p k) in
  (forall i r, happened w w' (EvRemove i r) -> exists g, files_of E [] content g /\ requested (s_cwd E) (key_dir p k) r = dir ++ g) /\
  (forall g, files_of E [] content g -> ~ own_ignore E p k (dir ++ g) -> file_at (w_fs w') (dir ++ g) = None \/ happened w w' (EvWrite (dir ++ g))) /\
  (forall q, ~ files_of E [] content q -> ~ own_ignore E p k (dir ++ q) -> ~ happened w w' (EvWrite (dir ++ q)) ->
     file_at (w_fs w') (dir ++ q) = file_at (w_fs w) (dir ++ q)).
Proof.
  intros Hc Hb Hreg Huid Hfai Hdet Hdef Hret Hval Hcq Hk Hgi Hw Hbu Hq H dir.
  destruct (settled_save E n p k o w o' j w') as (H1 & H2 & H3); trivial. split; [|split].
  - intros i r Hr. destruct (H1 i r Hr) as (g & Hg & Hx). exists g. split; [apply Hq; assumption|exact Hx].
  - intros g Hg. apply H2. apply Hq. assumption.
  - intros q Hn. apply H3. intros Hx. apply Hn, Hq. assumption.
Qed.

(** A list holds a container in a record; a program assigns another storable to that item and saves the list.  The files of
    the records in the old container are [sub_of t ++ g], in the record's sub directory; what the save removes is [g], seen
    from the directory of the list: those files are gone unless the save wrote them.  All other files that are not written
    are left as they were, those of the old container among them if they are not also called by a name of the first kind. *)
Theorem C67_replaced_list_item : forall E N n p k q a b content t pre v w0 r q' s' u' w o' j w',
  absolute (s_cwd E) -> absolute (o_base p) -> registered_classes E -> ordinary_uuids E -> faithful_methods E ->
  reads_determined E -> plain_defaults E ->
  s_retouch E = $"auto" \/ s_retouch E = $"quit" -> s_validate E = true -> s_clean E = true ->
  plain k -> k <> $".gitignore" -> is_storable E v = true -> is_removable content = true -> at_rest E content ->
  seq_set E N (q, a ++ ORec content t pre None None :: b, []) (Z.of_nat (List.length a)) v w0 = (Ok (r, (q', s', u')), w) ->
  well_formed (w_fs w) -> (forall x, In x (a ++ ORec v t pre None None :: b) -> holds E w (key_dir p k) [] x) ->
  save E n p k (OSeq q' s' u') w = (Ok (o', j), w') ->
  let dir := location (s_cwd E) (key_dir p k) in
  s' = a ++ ORec v t pre None None :: b /\
  (forall g, files_of E (sub_of t) content (sub_of t ++ g) <-> files_of E [] content g) /\
  (forall i f, happened w w' (EvRemove i f) -> exists g, files_of E [] content g /\ requested (s_cwd E) (key_dir p k) f = dir ++ g) /\
  (forall g, files_of E [] content g -> ~ own_ignore E p k (dir ++ g) -> file_at (w_fs w') (dir ++ g) = None \/ happened w w' (EvWrite (dir ++ g))) /\
  (forall f, ~ files_of E [] content f -> ~ own_ignore E p k (dir ++ f) -> ~ happened w w' (EvWrite (dir ++ f)) ->
     file_at (w_fs w') (dir ++ f) = file_at (w_fs w) (dir ++ f)).
Proof.
  intros E N n p k q a b content t pre v w0 r q' s' u' w o' j w' Hc Hb Hreg Huid Hfai Hdet Hdef Hret Hval Hcq Hk Hgi Hst Hrm Har Hset Hw Hh H dir.
  assert (Hi : list_pos (Z.of_nat (List.length a)) (List.length (a ++ ORec content t pre None None :: b)) = Some (List.length a)) by (rewrite app_length; cbn [List.length]; zcases).
  unfold seq_set in Hset. rewrite Hi in Hset.
  replace (Z.of_nat (List.length a) <? Z.of_nat (List.length (a ++ ORec content t pre None None :: b)))%Z with true in Hset
    by (symmetry; apply Z.ltb_lt; rewrite app_length; cbn [List.length]; lia).
  rewrite nth_error_mid, mbind_run, over_record in Hset by assumption. unfold seq_wrap in Hset. cbn [is_storable sto_name] in Hset. rewrite set_nth_app in Hset.
  unfold ret in Hset. cbn [app] in Hset. injection Hset as <- <- <- <- <-.
  split; [reflexivity|]. split; [intros g; apply files_relative|].
  eapply replaced_save; try eassumption.
  - apply h_seq; [constructor; [assumption|constructor]|]. intros x Hx. eapply holds_mono; [|exact (Hh x Hx)]. intros cs u ->. constructor.
  - intros f. split; intros Hf.
    + inversion Hf as [| | |? ? ? ? x ? Hx Hd| | | |? ? ? ? ? Hr|]; subst.
      * exfalso. eapply (holds_none _ E w0 (key_dir p k)); [|apply Hh; exact Hx|exact Hd]. intros cs f0 (y & [] & _).
      * destruct Hr as (x & [<-|[]] & Hx). exact Hx.
    + apply del_item. exists content. split; [left; reflexivity|exact Hf].
Qed.
(** The same for an mdict. *)
Theorem C67_replaced_dict_value : forall E N n p k q s key content t pre v w0 r q' s' u' w o' j w',
  absolute (s_cwd E) -> absolute (o_base p) -> registered_classes E -> ordinary_uuids E -> faithful_methods E ->
  reads_determined E -> plain_defaults E ->
  s_retouch E = $"auto" \/ s_retouch E = $"quit" -> s_validate E = true -> s_clean E = true ->
  plain k -> k <> $".gitignore" -> is_storable E v = true -> is_removable content = true -> at_rest E content ->
  assoc key s = Some (ORec content t pre None None) -> NoDup (map fst s) ->
  map_set E N (q, s, []) key v w0 = (Ok (r, (q', s', u')), w) ->
  well_formed (w_fs w) -> (forall k1 x, In (k1, x) s -> k1 <> key -> holds E w (key_dir p k) [] x) -> holds E w (key_dir p k) [] (ORec v t pre None None) ->
  save E n p k (OMap q' s' u') w = (Ok (o', j), w') ->
  let dir := location (s_cwd E) (key_dir p k) in
  assoc key s' = Some (ORec v t pre None None) /\
  (forall g, files_of E (sub_of t) content (sub_of t ++ g) <-> files_of E [] content g) /\
  (forall i f, happened w w' (EvRemove i f) -> exists g, files_of E [] content g /\ requested (s_cwd E) (key_dir p k) f = dir ++ g) /\
  (forall g, files_of E [] content g -> ~ own_ignore E p k (dir ++ g) -> file_at (w_fs w') (dir ++ g) = None \/ happened w w' (EvWrite (dir ++ g))) /\
  (forall f, ~ files_of E [] content f -> ~ own_ignore E p k (dir ++ f) -> ~ happened w w' (EvWrite (dir ++ f)) ->
     file_at (w_fs w') (dir ++ f) = file_at (w_fs w) (dir ++ f)).
Proof.
  intros E N n p k q s key content t pre v w0 r q' s' u' w o' j w' Hc Hb Hreg Huid Hfai Hdet Hdef Hret Hval Hcq Hk Hgi Hst Hrm Har Ha Hnd Hset Hw Hh Hv H dir.
  unfold map_set in Hset. rewrite Ha, mbind_run, over_record in Hset by assumption. cbn [is_storable sto_name] in Hset. unfold ret in Hset. cbn [app] in Hset. injection Hset as <- <- <- <- <-.
  assert (Hdel : forall k1 x, In (k1, x) (assoc_del key s) -> In (k1, x) s /\ k1 <> key).
  { clear. intros k1 x. induction s as [|[k2 y] s IH]; cbn [assoc_del]; [intros []|]. destruct (str_eq_dec k2 key) as [->|Hn].
    - intros Hx. destruct (IH Hx) as [H1 H2]. split; [right; assumption|assumption].
    - intros [Hx|Hx]; [injection Hx as <- <-; split; [left; reflexivity|congruence]|]. destruct (IH Hx) as [H1 H2]. split; [right; assumption|assumption]. }
  split; [rewrite SerialMore.assoc_app, assoc_del_same; cbn [assoc]; destruct (str_eq_dec key key); [reflexivity|congruence]|]. split; [intros g; apply files_relative|].
  eapply replaced_save; try eassumption.
  - apply h_map; [constructor; [assumption|constructor]| |].
    2:{ rewrite map_app. cbn [map fst]. apply (Permutation.Permutation_NoDup (Permutation.Permutation_cons_append _ _)). constructor; [|apply assoc_del_keys; assumption]. intros Hi. apply in_map_iff in Hi as ([k1 x] & Hx & Hin). cbn in Hx. subst k1. apply Hdel in Hin as [_ Hx]. congruence. }
    intros k1 x Hx. apply (holds_mono (fun _ u => u = [])); [intros cs u ->; constructor|].
    apply in_app_or in Hx as [Hx|[Hx|[]]]; [|injection Hx as <- <-; exact Hv]. apply Hdel in Hx as [Hx Hne]. exact (Hh k1 x Hx Hne).
  - intros f. split; intros Hf.
    + inversion Hf as [| | | |? ? ? ? k1 x ? Hx Hd| | | |? ? ? ? ? Hr]; subst.
      * exfalso. eapply (holds_none _ E w0 (key_dir p k)); [| |exact Hd]; [intros cs f0 (y & [] & _)|].
        apply in_app_or in Hx as [Hx|[Hx|[]]]; [|injection Hx as <- <-; exact Hv]. apply Hdel in Hx as [Hx Hne]. exact (Hh k1 x Hx Hne).
      * destruct Hr as (x & [<-|[]] & Hx). exact Hx.
    + apply del_value. exists content. split; [left; reflexivity|exact Hf].
Qed.

(** ** Some of the files stay *)
Lemma finite_union {A} (P : A -> list str -> Prop) l : (forall x, In x l -> exists L, forall g, P x g <-> In g L) ->
  exists L, forall g, (exists x, In x l /\ P x g) <-> In g L.
Proof.
  induction l as [|x l IH]; intros H.
  - exists []. intros g. split; [intros (x & [] & _)|intros []].
  - destruct (H x (or_introl eq_refl)) as [L1 H1]. destruct IH as [L2 H2]; [intros y Hy; apply H; right; assumption|].
    exists (L1 ++ L2). intros g. rewrite in_app_iff, <- H1, <- H2. split.
    + intros (y & [<-|Hy] & Hp); [left; assumption|right; exists y; auto].
    + intros [Hp|(y & Hy & Hp)]; [exists x; split; [left; reflexivity|assumption]|exists y; split; [right; assumption|assumption]].
Qed.
Lemma files_finite E o : at_rest E o -> exists L, forall g, files_of E [] o g <-> In g L.
Proof.
  revert o. fix IH 2. intros o H.
  destruct H as [a|l Hl|d Hd|c d|c fs fds Hk Hn Hf|p s u Hs|p s u Hs|content t pre we re cs Hc Hp|ty tt b cx c t pre we re cs Hty Hp].
  - exists []. intros g. split; [intros H; inversion H|intros []].
  - destruct (finite_union (fun x g => files_of E [] x g) l (fun x Hx => IH x (Hl x Hx))) as [L HL]. exists L. intros g. rewrite <- HL. split.
    + intros H. inversion H; subst; eauto.
    + intros (x & Hx & H). econstructor; eassumption.
  - destruct (finite_union (fun kx g => files_of E [] (snd kx) g) d) as [L HL].
    { intros [k x] Hx. exact (IH x (Hd k x Hx)). }
    exists L. intros g. rewrite <- HL. split.
    + intros H. inversion H as [|? ? k x ? Hx Hg| | | | |]; subst. exists (k, x). auto.
    + intros ([k x] & Hx & H). econstructor; eassumption.
  - exists []. intros g. split; [intros H; inversion H|intros []].
  - destruct (finite_union (fun f g => mf_noser f = false /\ exists v, assoc (mf_name f) fs = Some v /\ files_of E [] v g) fds) as [L HL].
    { intros f Hfd. specialize (Hf f). destruct (mf_noser f); [exists []; intros g; split; [intros [Hx _]; discriminate|intros []]|].
      destruct (assoc (mf_name f) fs) as [v|] eqn:Ea.
      - destruct (IH v (Hf v Hfd eq_refl eq_refl)) as [L HL]. exists L. intros g. rewrite <- HL. split; [intros (_ & v' & Hv & Hg); injection Hv as <-; exact Hg|]. intros Hg. split; [reflexivity|]. exists v. auto.
      - exists []. intros g. split; [intros (_ & v & Hx & _); discriminate|intros []]. }
    exists L. intros g. rewrite <- HL. split.
    + intros H. inversion H as [| |? ? ? ? fds' f v ? Hk' Hfd Hno Ha Hg| | | |]; subst. rewrite Hk in Hk'. injection Hk' as <-. exists f. split; [assumption|]. split; [assumption|]. exists v. auto.
    + intros (f & Hfd & Hno & v & Ha & Hg). econstructor; eassumption.
  - destruct (finite_union (fun x g => files_of E [] x g) s (fun x Hx => IH x (Hs x Hx))) as [L HL]. exists L. intros g. rewrite <- HL. split.
    + intros H. inversion H; subst; eauto.
    + intros (x & Hx & H). econstructor; eassumption.
  - destruct (finite_union (fun kx g => files_of E [] (snd kx) g) s) as [L HL].
    { intros [k x] Hx. exact (IH x (Hs k x Hx)). }
    exists L. intros g. rewrite <- HL. split.
    + intros H. inversion H as [| | | |? ? ? ? k x ? Hx Hg| |]; subst. exists (k, x). auto.
    + intros ([k x] & Hx & H). econstructor; eassumption.
  - destruct (IH content Hc) as [L HL]. exists (cs :: map (app (sub_of t)) L). intros g. split.
    + intros H. inversion H as [| | | | |? ? ? ? ? ? cs' Hp'|? ? ? ? ? ? ? Hg]; subst.
      * left. eapply places_unique; eassumption.
      * right. apply files_shift in Hg as (g' & -> & Hg). apply in_map_iff. exists g'. split; [reflexivity|]. apply HL. exact (Hg []).
    + intros [<-|Hg]; [apply (fo_record E [] content t pre we re cs); assumption|]. apply in_map_iff in Hg as (g' & <- & Hg). apply fo_content. apply files_relative. apply HL. assumption.
  - exists [cs]. intros g. split.
    + intros H. inversion H as [| | | | |? ? ? ? ? ? cs' Hp'|? ? ? ? ? ? ? Hg]; subst; [left; eapply places_unique; eassumption|inversion Hg].
    + intros [<-|[]]. apply (fo_record E [] _ t pre we re cs); assumption.
Qed.
Lemma files_named E comps o q : files_of E comps o q -> exists g, q = comps ++ g /\ g <> [].
Proof.
  intros H. induction H as [comps l x q Hx H IH|comps d k x q Hx H IH|comps c fs u fds f v q Hk Hf Hno Ha H IH|comps p s u x q Hx H IH
    |comps p s u k x q Hx H IH|comps content t pre we re cs Hp|comps content t pre we re q H (g & -> & Hg)]; try exact IH.
  - exists cs. split; [reflexivity|]. destruct Hp as (sd & n & Hp). intros ->. destruct Hp as (_ & _ & _ & _ & _ & Hx). destruct (filter _ _); discriminate.
  - exists (sub_of t ++ g). split; [rewrite app_assoc; reflexivity|]. destruct (sub_of t); [exact Hg|discriminate].
Qed.
(** Whatever a finite set of files in a sub directory is called, one of them is not called like one in the directory. *)
Lemma outside (s : list str) (L : list (list str)) : s <> [] -> L <> [] -> exists g, In g L /\ ~ In (s ++ g) L.
Proof.
  intros Hs HL. assert (Hmax : exists g, In g L /\ forall g', In g' L -> List.length g' <= List.length g).
  { induction L as [|g L IH]; [congruence|]. destruct L as [|g2 L].
    - exists g. split; [left; reflexivity|]. intros g' [<-|[]]. lia.
    - destruct IH as (g3 & H3 & Hm); [discriminate|]. destruct (le_lt_dec (List.length g) (List.length g3)).
      + exists g3. split; [right; assumption|]. intros g' [<-|Hg']; [assumption|auto].
      + exists g. split; [left; reflexivity|]. intros g' [<-|Hg']; [lia|]. specialize (Hm g' Hg'). lia. }
  destruct Hmax as (g & Hg & Hm). exists g. split; [assumption|]. intros Hx. specialize (Hm _ Hx). rewrite app_length in Hm. destruct s; [congruence|]. cbn in Hm. lia.
Qed.
(** If the record had a sub directory and the old container had files, one of them at least is left behind, unless the save
    writes to one of those files. *)
Theorem C67_files_left_behind : forall E N n p k q a b content t pre v w0 r q' s' u' w o' j w',
  absolute (s_cwd E) -> absolute (o_base p) -> registered_classes E -> ordinary_uuids E -> faithful_methods E ->
  reads_determined E -> plain_defaults E ->
  s_retouch E = $"auto" \/ s_retouch E = $"quit" -> s_validate E = true -> s_clean E = true ->
  plain k -> k <> $".gitignore" -> is_storable E v = true -> is_removable content = true -> at_rest E content ->
  seq_set E N (q, a ++ ORec content t pre None None :: b, []) (Z.of_nat (List.length a)) v w0 = (Ok (r, (q', s', u')), w) ->
  well_formed (w_fs w) -> (forall x, In x (a ++ ORec v t pre None None :: b) -> holds E w (key_dir p k) [] x) ->
  save E n p k (OSeq q' s' u') w = (Ok (o', j), w') ->
  let dir := location (s_cwd E) (key_dir p k) in
  sub_of t <> [] -> (exists f, files_of E (sub_of t) content f) ->
  (forall f, files_of E (sub_of t) content f -> ~ happened w w' (EvWrite (dir ++ f))) ->
  exists f, files_of E (sub_of t) content f /\ file_at (w_fs w') (dir ++ f) = file_at (w_fs w) (dir ++ f).
Proof.
  intros E N n p k q a b content t pre v w0 r q' s' u' w o' j w' Hc Hb Hreg Huid Hfai Hdet Hdef Hret Hval Hcq Hk Hgi Hst Hrm Har Hset Hw Hh H dir Hsub (f & Hf) Hnw.
  destruct (C67_replaced_list_item E N n p k q a b content t pre v w0 r q' s' u' w o' j w') as (_ & Hrel & _ & _ & Hkeep); trivial.
  destruct (files_finite E content Har) as [L HL]. apply files_shift in Hf as (g0 & -> & Hg0).
  destruct (outside (sub_of t) L Hsub) as (g & Hg & Hn).
  { pose proof (proj1 (HL g0) (Hg0 [])) as Hx. intros ->. exact Hx. }
  apply HL in Hg. pose proof (proj2 (Hrel g) Hg) as Hf. exists (sub_of t ++ g). split; [exact Hf|].
  apply Hkeep; [intros Hx; apply Hn, HL; exact Hx| |apply Hnw; exact Hf].
  intros (_ & _ & Hx). apply app_inv_head in Hx. destruct (files_named E [] content g Hg) as (g' & -> & Hg'). cbn [app] in Hx.
  destruct (sub_of t) as [|x sb]; [congruence|]. injection Hx as _ Hx. destruct sb; [contradiction|discriminate].
Qed.

(** ** An example *)
(** A list of an smlist, stored in the sub directory "a", and a blob.  Both hold a blob in a file "x.bin", one in the sub
    directory, one next to it.  The list is loaded, the smlist is looked at and then replaced by an empty one. *)
Definition rp_model : obj :=
  OSeq (mkSeq false [] false None)
    [ORec (OSeq (mkSeq true [] false None) [rec_of (blob "inner") "x"] []) (mkTarget (Some ($"a")) (Some ($"list")) None) false None None; rec_of (blob "outer") "x"] [].
Definition rp_start : world := mkWorld (w_fs (snd (save rt_env 10 ex_opts ($"new") rp_model ex_world))) [] [] 5 [].
Definition rp_loaded : world := snd (load rt_env 10 ex_opts ($"new") None None rp_start).
Definition rp_item : obj := kp_waiting "_sto__mlist" "a/list.json".
Definition rp_world : world := snd (content_of rt_env 10 rp_item rp_loaded).
Definition rp_content : obj :=
  OSeq (mkSeq true [] false None)
    [ORec (OUnloaded (Some ($"_sto__blob")) (from_path ($"x.bin")) (join2 (key_dir ex_opts ($"new")) ($"a")) (mkCtx 0 ($"a"))) (from_path ($"x.bin")) false None None] [].
Definition rp_new : obj := OSeq (mkSeq true [] false None) [] [].
Definition rp_record (o : obj) : obj := ORec o (from_path ($"a/list.json")) false None None.
Lemma rp_places : places (from_path ($"x.bin")) [$"x.bin"].
Proof.
  exists [], ($"x.bin"). repeat split; try discriminate; cbn; try (intros Hx; repeat destruct Hx as [Hx|Hx]; try discriminate; contradiction).
  intros [x Hx]. discriminate.
Qed.
Lemma rp_holds x : In x [rp_record rp_new; kp_waiting "_sto__blob" "x.bin"] -> holds rt_env rp_world (key_dir ex_opts ($"new")) [] x.
Proof.
  assert (Hcx : context_at rt_env rp_world (mkCtx 0 []) (key_dir ex_opts ($"new")) []).
  { assert (Hab : absolute (s_cwd rt_env)) by (eexists; reflexivity). assert (Hun : In (s_retouch rt_env) unattended) by (left; reflexivity).
    apply (stays_context rt_env rp_loaded rp_world (mkCtx 0 [])); [eexists; reflexivity|unfold rp_world; apply content_stays; assumption|].
    eexists. split; [vm_compute; reflexivity|]. split; [exists ex_fs, true, true, [], ex_fs; split; [constructor|reflexivity]|split; [reflexivity|constructor]]. }
  intros [<-|[<-|[]]].
  - apply h_rec; [intros sd _; apply h_seq; [reflexivity|intros y []]|]. intros sd st su [Hsd|[Hsd _]] [Hst|[Hst _]] [Hsu|[Hsu _]]; try discriminate.
    vm_compute in Hsd, Hst, Hsu. assert (sd = $"a") as -> by (vm_compute; congruence). assert (st = $"list") as -> by (vm_compute; congruence). assert (su = $".json") as -> by (vm_compute; congruence).
    repeat split; try discriminate; cbn; try (intros Hx; repeat destruct Hx as [Hx|Hx]; try discriminate; contradiction). intros [x Hx]. discriminate.
  - apply h_waiting; [vm_compute; reflexivity|exact Hcx].
Qed.
Example C67_example :
  s_clean rt_env = true /\ is_storable rt_env rp_new = true /\ is_removable rp_content = true /\ at_rest rt_env rp_content /\ well_formed (w_fs rp_world) /\
  sub_of (from_path ($"a/list.json")) = [$"a"] /\ files_of rt_env [$"a"] rp_content [$"a"; $"x.bin"] /\
  fst (load rt_env 10 ex_opts ($"new") None None rp_start) = Ok (OSeq (mkSeq false [] false None) [rp_item; kp_waiting "_sto__blob" "x.bin"] []) /\
  fst (content_of rt_env 10 rp_item rp_loaded) = Ok (rp_content, rp_record rp_content) /\
  seq_set rt_env 10 (mkSeq false [] false None, [rp_record rp_content; kp_waiting "_sto__blob" "x.bin"], []) 0 rp_new rp_world =
    (Ok (Ok (OAtom ANone), (mkSeq false [] false None, [rp_record rp_new; kp_waiting "_sto__blob" "x.bin"], [rp_content])), rp_world) /\
  let dir := location (s_cwd rt_env) (key_dir ex_opts ($"new")) in
  exists o' j w', save rt_env 10 ex_opts ($"new") (OSeq (mkSeq false [] false None) [rp_record rp_new; kp_waiting "_sto__blob" "x.bin"] [rp_content]) rp_world = (Ok (o', j), w') /\
    (forall f, files_of rt_env [$"a"] rp_content f -> ~ happened rp_world w' (EvWrite (dir ++ f))) /\
    file_at (w_fs w') (dir ++ [$"a"; $"x.bin"]) = Some (Text ($"inner")) /\
    file_at (w_fs rp_world) (dir ++ [$"x.bin"]) = Some (Text ($"outer")) /\ file_at (w_fs w') (dir ++ [$"x.bin"]) = None.
Proof.
  split; [reflexivity|]. split; [vm_compute; reflexivity|]. split; [reflexivity|].
  split; [apply st_seq; intros x [<-|[]]; eapply st_waiting; [vm_compute; reflexivity|apply rp_places]|].
  split; [vm_compute; repeat constructor; cbn; intuition discriminate|]. split; [vm_compute; reflexivity|].
  split; [eapply fo_item; [left; reflexivity|apply (fo_record rt_env [$"a"] _ _ _ _ _ [$"x.bin"]); apply rp_places]|].
  split; [vm_compute; reflexivity|]. split; [vm_compute; reflexivity|]. split; [vm_compute; reflexivity|]. intros dir.
  assert (Hf : forall f, files_of rt_env [$"a"] rp_content f -> f = [$"a"; $"x.bin"]).
  { intros f Hf. inversion Hf as [| | |? ? ? ? x ? Hx Hg| | |]; subst. destruct Hx as [<-|[]].
    inversion Hg as [| | | | |? ? ? ? ? ? cs Hp|? ? ? ? ? ? ? Hg2]; subst; [|inversion Hg2]. rewrite (places_unique _ _ _ Hp rp_places). reflexivity. }
  assert (Hno : forall w' l, existsb (fun e => match e with EvWrite l' => if loc_eq_dec l l' then true else false | _ => false end) (firstn (List.length (w_log w') - List.length (w_log rp_world)) (w_log w')) = false ->
    ~ happened rp_world w' (EvWrite l)).
  { intros w' l Hx Hh. apply happened_in in Hh. enough (Ht : true = false) by discriminate Ht. rewrite <- Hx. symmetry. apply existsb_exists. exists (EvWrite l). split; [exact Hh|].
    destruct (loc_eq_dec l l); [reflexivity|congruence]. }
  let x := eval vm_compute in (save rt_env 10 ex_opts ($"new") (OSeq (mkSeq false [] false None) [rp_record rp_new; kp_waiting "_sto__blob" "x.bin"] [rp_content]) rp_world) in
  match x with (Ok (?o, ?j), ?w') => exists o, j, w' end.
  split; [vm_compute; reflexivity|]. split; [intros f Hx; apply Hf in Hx; subst f; apply Hno; vm_compute; reflexivity|].
  split; [vm_compute; reflexivity|]. split; vm_compute; reflexivity.
Qed.

Print Assumptions C67_replaced_list_item.
Print Assumptions C67_replaced_dict_value.
Print Assumptions C67_files_left_behind.
