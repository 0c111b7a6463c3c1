(** Recording a value at a key that is in use renames the record and forgets its old file: C73. *)
From Coq Require Import List Ascii String Bool Arith ZArith Lia.
From Verif Require Import Base PosixModel FsModel PathModel SerialModel StoreModel TrackModel ContainerModel FieldModel PropsContainer PropsField StoreFrame StoreMount StoreSpec StoreLocal StorePlace
     StoreRecord StoreSave StoreEvents StoreExample SerialSpec SerialProof RoundSpec KeepSpec RoundProof ReplayProof CleanProof DropProof DropSettled KeepProof ContextProof KeepSave PathSpec MountSpec DirSpec
     PosixProof FsProof DirProof TargetProof MountProof HistoryProof PathFacts PropsStore PropsRepo PropsRound PropsKeep PropsDelete PropsReplace PropsDropped PropsExact.
Import ListNotations.

Local Arguments str_eq_dec : simpl never.
Local Arguments atom_eq_dec : simpl never.

(** ** Specification *)
(** The file name asked for: what is given replaces what was there; the sub directory is taken inside the one there is. *)
Definition asked (stem suffix name : part) (subdir : str) (t t' : target) : Prop :=
  (exists d, t_subdir t = Some d /\ t_subdir t' = Some (join2 d subdir)) /\
  match name with
  | Some nm => stem = None /\ suffix = None /\ t_stem t' = Some (fst (splitext nm)) /\ t_suffix t' = Some (snd (splitext nm))
  | None => (forall x, stem = Some x -> t_stem t' = Some x) /\ (stem = None -> t_stem t' = t_stem t) /\
            (forall x, suffix = Some x -> t_suffix t' = Some x) /\ (suffix = None -> t_suffix t' = t_suffix t)
  end.

(** ** Proofs *)
Lemma edit_asked c t p we re stem suffix name subdir pre r : edit_target (ORec c t p we re) stem suffix name subdir pre = Ok r ->
  exists t', r = ORec c t' (p || pre) we re /\ asked stem suffix name subdir t t'.
Proof.
  unfold edit_target. destruct (t_subdir t) as [d|] eqn:Ed; [|discriminate]. cbn [bind]. unfold Target. intros H. destruct name as [nm|].
  - destruct stem, suffix; try discriminate. destruct (splitext nm) as [a b] eqn:Es. cbn [bind] in H. injection H as <-. eexists. split; [reflexivity|].
    split; [exists d; split; [assumption|reflexivity]|]. rewrite Es. repeat split.
  - cbn [bind] in H. injection H as <-. eexists. split; [reflexivity|]. split; [exists d; split; [assumption|reflexivity]|].
    cbn [merge merge2 t_stem t_suffix merge_part]. repeat split; intros; subst; reflexivity.
Qed.
Lemma assoc_end {A} k (s : list (str * A)) v : assoc k (assoc_del k s ++ [(k, v)]) = Some v.
Proof.
  pose proof (FsProof.assoc_del_same k s) as H. induction (assoc_del k s) as [|[k' x] l IH]; cbn [app assoc] in *.
  - destruct (str_eq_dec k k); congruence.
  - destruct (str_eq_dec k' k); [discriminate|]. apply IH. assumption.
Qed.
Lemma set_end {A} k (s : list (str * A)) v v' : assoc_set k v' (assoc_del k s ++ [(k, v)]) = assoc_del k s ++ [(k, v')].
Proof.
  pose proof (FsProof.assoc_del_same k s) as H. induction (assoc_del k s) as [|[k' x] l IH]; cbn [app assoc assoc_set] in *.
  - destruct (str_eq_dec k k); congruence.
  - destruct (str_eq_dec k' k); [discriminate|]. rewrite IH by assumption. reflexivity.
Qed.
(** What is stored for the key. *)
Lemma over_record E n c t pre we re v w v1 more w' : is_storable E v = true -> value c -> over E n (ORec c t pre we re) v w = (Ok (v1, more), w') ->
  (exists we' re', v1 = ORec v t pre we' re') /\ Forall value more /\ (forall cl d, c = OLeaf cl d -> more = [] /\ w' = w).
Proof.
  intros Hs Hc H. unfold over in H. rewrite Hs in H. destruct (s_clean E) eqn:Ecl; unfold mbind in H; cbn [content_of ret andb] in H.
  - unfold mbind in H. destruct (rec_load E (depth E n) c re w) as [[[[x c'] re']|e] w1] eqn:Er; [|discriminate]. cbn [ret] in H. injection H as <- <- <-.
    destruct (load_value E n c re w x c' re' w1 Hc Er) as [V1 V2].
    split; [eauto|]. split; [destruct (is_removable x); [constructor; [exact V1|constructor]|constructor]|].
    intros cl d ->. cbn [rec_load] in Er. unfold ret in Er. injection Er as <- _ _ <-. split; reflexivity.
  - injection H as <- <- <-. split; [eauto|]. split; [constructor|]. intros. split; reflexivity.
Qed.
Lemma record_run E n p s u k v stem suffix name subdir pl w r p' s' u' w' c t pre we re :
  assoc k s = Some (ORec c t pre we re) -> value c -> is_storable E v = true ->
  map_record E n (p, s, u) k v stem suffix name subdir pl w = (Ok (Ok r, (p', s', u')), w') ->
  p' = p /\ exists t' we' re' more, s' = assoc_del k s ++ [(k, ORec v t' (pre || pl) we' re')] /\ asked stem suffix name subdir t t' /\
    u' = u ++ more /\ Forall value more /\ (forall cl d, c = OLeaf cl d -> more = [] /\ w' = w).
Proof.
  intros Ha Hc Hs H. unfold map_record, map_set in H. rewrite Ha in H. apply mbind_ok in H as ([r1 [[p1 s1] u1]] & w1 & H1 & H).
  apply mbind_ok in H1 as ([v1 more] & w2 & H1 & H2). destruct (over_record _ _ _ _ _ _ _ _ _ _ _ _ Hs Hc H1) as ((we' & re' & ->) & Hm & Hl).
  unfold ret in H2. injection H2 as _ <- <- <- <-. cbn [snd] in H. rewrite Hs in H. cbn [is_storable sto_name] in H.
  rewrite assoc_end in H. destruct (edit_target (ORec v t pre we' re') stem suffix name subdir pl) as [r'|e] eqn:Ee; [|discriminate].
  destruct (edit_asked _ _ _ _ _ _ _ _ _ _ _ Ee) as (t' & -> & Hk). unfold ret in H. injection H as _ <- <- <- <-. rewrite set_end.
  split; [reflexivity|]. exists t', we', re', more. auto.
Qed.

(** ** Theorems *)
(** The value is stored in the record of the key, which moves to the end of the dict and is renamed as asked. Its old file
    is neither the file of an item any more, nor is it put aside for removal. *)
Theorem C73_record_renames : forall E n p s u k v stem suffix name subdir pl w r p' s' u' w' c t pre we re,
  assoc k s = Some (ORec c t pre we re) -> value c -> is_storable E v = true ->
  map_record E n (p, s, u) k v stem suffix name subdir pl w = (Ok (Ok r, (p', s', u')), w') ->
  exists t' we' re' more, s' = assoc_del k s ++ [(k, ORec v t' (pre || pl) we' re')] /\ u' = u ++ more /\ asked stem suffix name subdir t t' /\
    (t' <> t -> ~ named t (map snd (assoc_del k s)) -> ~ named t u -> ~ named t (map snd s') /\ ~ named t u').
Proof.
  intros E n p s u k v stem suffix name subdir pl w r p' s' u' w' c t pre we re Ha Hc Hs H.
  destruct (record_run _ _ _ _ _ _ _ _ _ _ _ _ _ _ _ _ _ _ _ _ _ _ _ Ha Hc Hs H) as (_ & t' & we' & re' & more & -> & Hk & -> & Hm & _).
  exists t', we', re', more. repeat split; try assumption; try reflexivity; try apply Hk.
  - intros (c1 & p1 & we1 & re1 & Hi). rewrite map_app in Hi. apply in_app_or in Hi as [Hi|[Hi|[]]].
    + apply H1. do 4 eexists. exact Hi.
    + injection Hi as _ Ht _ _ _. congruence.
  - intros (c1 & p1 & we1 & re1 & Hi). apply in_app_or in Hi as [Hi|Hi].
    + apply H2. do 4 eexists. exact Hi.
    + rewrite Forall_forall in Hm. exact (Hm _ Hi _ _ _ _ _ eq_refl).
Qed.
Lemma still_discarded E p s u k cl d t pre we re v t' pre' we' re' q :
  assoc k s = Some (ORec (OLeaf cl d) t pre we re) -> (exists cl' d', v = OLeaf cl' d') ->
  discarded E [] (OMap p (assoc_del k s ++ [(k, ORec v t' pre' we' re')]) u) q -> discarded E [] (OMap p s u) q.
Proof.
  intros Ha (cl' & d' & ->) H. inversion H as [| | | |? ? ? ? k1 x ? Hi Hx| | | |? ? ? ? ? Hu]; subst.
  - apply in_app_or in Hi as [Hi|[Hi|[]]].
    + apply (del_in_value _ E [] p s u k1 x); [|exact Hx]. clear - Hi. induction s as [|[k0 y] s IH]; cbn [assoc_del] in Hi; [destruct Hi|].
      destruct (str_eq_dec k0 k); [right; apply IH; exact Hi|]. destruct Hi as [Hi|Hi]; [left; exact Hi|right; apply IH; exact Hi].
    + injection Hi as <- <-. inversion Hx as [| | | | |? ? ? ? ? ? ? Hc| | |]; subst. inversion Hc.
  - apply del_value. exact Hu.
Qed.
(** So a save leaves the old file on the disk, unless it writes it for something else. *)
Theorem C73_old_file_stays : forall E N n p k q s u key cl d cl' d' t pre we re stem suffix name subdir pl w0 r q' s' u' w o' j w' cs,
  absolute (s_cwd E) -> absolute (o_base p) -> registered_classes E -> ordinary_uuids E -> faithful_methods E ->
  reads_determined E -> plain_defaults E ->
  s_retouch E = $"auto" \/ s_retouch E = $"quit" -> s_validate E = true -> s_clean E = true ->
  plain k -> k <> $".gitignore" ->
  assoc key s = Some (ORec (OLeaf cl d) t pre we re) -> is_storable E (OLeaf cl' d') = true ->
  map_record E N (q, s, u) key (OLeaf cl' d') stem suffix name subdir pl w0 = (Ok (Ok r, (q', s', u')), w) ->
  well_formed (w_fs w) -> holds_settled E w (key_dir p k) [] (OMap q' s' u') -> save E n p k (OMap q' s' u') w = (Ok (o', j), w') ->
  let dir := location (s_cwd E) (key_dir p k) in
  places t cs -> ~ discarded E [] (OMap q s u) cs -> ~ own_ignore E p k (dir ++ cs) ->
  ~ happened w w' (EvWrite (dir ++ cs)) -> file_at (w_fs w') (dir ++ cs) = file_at (w_fs w0) (dir ++ cs).
Proof.
  intros E N n p k q s u key cl d cl' d' t pre we re stem suffix name subdir pl w0 r q' s' u' w o' j w' cs Hc Hb Hreg Huid Hfai Hdet Hdef Hret Hval Hcq Hk Hgi Ha Hs Hr Hw Hbu H dir Hp Hnd Hown Hd.
  assert (Hv : value (OLeaf cl d)) by (intros ? ? ? ? ?; discriminate).
  destruct (record_run _ _ _ _ _ _ _ _ _ _ _ _ _ _ _ _ _ _ _ _ _ _ _ Ha Hv Hs Hr) as (-> & t' & we' & re' & more & -> & _ & -> & _ & Hl).
  destruct (Hl _ _ eq_refl) as [-> ->]. rewrite app_nil_r in *.
  destruct (settled_save E n p k _ w0 o' j w' Hc Hb Hreg Huid Hfai Hdet Hdef Hret Hval Hcq Hk Hgi Hw Hbu H) as (_ & _ & H3).
  apply H3; [|exact Hown|exact Hd]. intros Hx. apply Hnd. eapply still_discarded; [exact Ha|do 2 eexists; reflexivity|exact Hx].
Qed.

Lemma record_ok E n p s u k v sub w r p' s' u' w' c t pre we re d :
  t_subdir t = Some d -> assoc k s = Some (ORec c t pre we re) -> value c -> is_storable E v = true ->
  map_record E n (p, s, u) k v None None None sub false w = (Ok (r, (p', s', u')), w') ->
  exists t' we' re', assoc k s' = Some (ORec v t' pre we' re') /\ t_stem t' = t_stem t /\ t_suffix t' = t_suffix t /\ t_subdir t' = Some (join2 d sub).
Proof.
  intros Ht Ha Hc Hs H. assert (Hr : exists x, r = Ok x).
  { unfold map_record, map_set in H. rewrite Ha in H. apply mbind_ok in H as ([r1 [[p1 s1] u1]] & w1 & H1 & H).
    apply mbind_ok in H1 as ([v1 more] & w2 & H1 & H2). destruct (over_record _ _ _ _ _ _ _ _ _ _ _ _ Hs Hc H1) as ((we' & re' & ->) & Hm & Hl).
    unfold ret in H2. injection H2 as _ <- <- <- <-. cbn [snd] in H. rewrite Hs in H. cbn [is_storable sto_name] in H. rewrite assoc_end in H.
    cbn [edit_target] in H. rewrite Ht in H. cbn [bind Target] in H. unfold ret in H. injection H as <- _ _ _ _. eauto. }
  destruct Hr as [x ->]. destruct (record_run _ _ _ _ _ _ _ _ _ _ _ _ _ _ _ _ _ _ _ _ _ _ _ Ha Hc Hs H) as (_ & t' & we' & re' & more & -> & ((d' & Hd & Hd') & _ & K1 & _ & K2) & _).
  exists t', we', re'. rewrite assoc_end, orb_false_r. rewrite Ht in Hd. injection Hd as <-. auto.
Qed.
(** Recording new values at the same key in the same sub directory, one after the other. *)
Fixpoint record_all (E : senv) (n : nat) (st : mapst) (k sub : str) (vs : list obj) : M (list (res obj) * mapst) :=
  match vs with
  | [] => ret ([], st)
  | v :: vs => x <- map_record E n st k v None None None sub false;; y <- record_all E n (snd x) k sub vs;; ret (fst x :: fst y, snd y)
  end.
(** Every recording goes one directory deeper. *)
Theorem C73_recording_again_nests : forall E n k sub vs p s u w rs p' s' u' w' c t pre we re ds v0,
  plain sub -> Forall plain ds -> t_subdir t = Some (join_sep ds) -> (forall v, In v vs -> is_storable E v = true) ->
  assoc k s = Some (ORec c t pre we re) -> value c ->
  record_all E n (p, s, u) k sub (vs ++ [v0]) w = (Ok (rs, (p', s', u')), w') -> is_storable E v0 = true ->
  exists t' we' re', assoc k s' = Some (ORec v0 t' pre we' re') /\ t_stem t' = t_stem t /\ t_suffix t' = t_suffix t /\
    t_subdir t' = Some (join_sep (ds ++ repeat sub (S (List.length vs)))).
Proof.
  intros E n k sub vs. induction vs as [|v vs IH]; intros p s u w rs p' s' u' w' c t pre we re ds v0 Hsub Hds Ht Hvs Ha Hc H H0.
  - cbn [app record_all] in H. apply mbind_ok in H as ([r1 [[p1 s1] u1]] & w1 & H1 & H). cbn [snd fst] in H. unfold mbind, ret in H. injection H as _ <- <- <- <-.
    destruct (record_ok _ _ _ _ _ _ _ _ _ _ _ _ _ _ _ _ _ _ _ _ Ht Ha Hc H0 H1) as (t1 & we1 & re1 & Hs1 & A1 & A2 & A3).
    exists t1, we1, re1. rewrite A1, A2, A3. repeat split; try assumption. rewrite join2_join_sep; [reflexivity|eapply Forall_impl; [|exact Hds]; apply plain_clean|apply Hsub].
  - cbn [app record_all] in H. apply mbind_ok in H as ([r1 [[p1 s1] u1]] & w1 & H1 & H). apply mbind_ok in H as ([rs2 [[p2 s2] u2]] & w2 & H2 & H). cbn [snd fst] in H, H2.
    unfold ret in H. injection H as _ <- <- <- <-. pose proof (Hvs v (or_introl eq_refl)) as Hv.
    destruct (record_ok _ _ _ _ _ _ _ _ _ _ _ _ _ _ _ _ _ _ _ _ Ht Ha Hc Hv H1) as (t1 & we1 & re1 & Hs1 & A1 & A2 & A3).
    rewrite join2_join_sep in A3; [|eapply Forall_impl; [|exact Hds]; apply plain_clean|apply Hsub].
    destruct (IH p1 s1 u1 w1 rs2 p2 s2 u2 w2 v t1 pre we1 re1 (ds ++ [sub]) v0) as (t2 & we2 & re2 & B0 & B1 & B2 & B3).
    + assumption.
    + apply Forall_app. split; [assumption|]. constructor; [assumption|constructor].
    + assumption.
    + intros x Hx. apply Hvs. right. assumption.
    + assumption.
    + apply (storable_value E). assumption.
    + assumption.
    + assumption.
    + exists t2, we2, re2. rewrite B1, B2, B3. repeat split; try assumption. rewrite <- app_assoc. reflexivity.
Qed.

(** ** Examples *)
(** [d.record("y", new, stem="other")] after the key was saved: other.bin is written and b.bin stays. *)
Definition rl_rename : M (res obj * mapst) := map_record rt_env 10 (dr_p, dr_dict, []) ($"y") (blob "new") (Some ($"other")) None None [] false.
Definition rl_after : list (str * obj) := [($"x", dr_record "a.bin"); ($"z", dr_record "c.bin"); ($"y", ORec (blob "new") (from_path ($"other.bin")) false None None)].
Lemma rl_places nm : nm = "other.bin"%string -> ordinary rt_env (blob "new") (from_path ($nm)).
Proof.
  intros -> sd st su [Hsd|[Hsd _]] [Hst|[Hst _]] [Hsu|[Hsu _]]; try discriminate; vm_compute in Hsd, Hst, Hsu;
  injection Hsd as <-; injection Hst as <-; injection Hsu as <-;
  (repeat split; try discriminate; cbn; try (intros Hx; repeat destruct Hx as [Hx|Hx]; try discriminate; contradiction); intros [x Hx]; discriminate).
Qed.
Lemma happened_first w w' ev : happened w w' ev -> In ev (firstn (List.length (w_log w') - List.length (w_log w)) (w_log w')).
Proof.
  intros (evs & H & Hi). rewrite H, app_length, Nat.add_sub, firstn_app, Nat.sub_diag, firstn_all, app_nil_r. assumption.
Qed.
Example C73_example :
  let w := dr_start (OMap dr_p dr_dict []) in
  assoc ($"y") dr_dict = Some (dr_record "b.bin") /\ value (blob "b.bin") /\ is_storable rt_env (blob "new") = true /\
  rl_rename w = (Ok (Ok (OAtom ANone), (dr_p, rl_after, [])), w) /\
  asked (Some ($"other")) None None [] (from_path ($"b.bin")) (from_path ($"other.bin")) /\
  well_formed (w_fs w) /\ holds_settled rt_env w (key_dir ex_opts ($"new")) [] (OMap dr_p rl_after []) /\
  places (from_path ($"b.bin")) [$"b.bin"] /\ ~ discarded rt_env [] (OMap dr_p dr_dict []) [$"b.bin"] /\ dr_files w = [true; true; true] /\
  exists o' j w', save rt_env 10 ex_opts ($"new") (OMap dr_p rl_after []) w = (Ok (o', j), w') /\ dr_files w' = [true; true; true] /\
    ~ happened w w' (EvWrite (location (s_cwd rt_env) (key_dir ex_opts ($"new")) ++ [$"b.bin"])) /\
    file_at (w_fs w') (location (s_cwd rt_env) (key_dir ex_opts ($"new")) ++ [$"other.bin"]) <> None.
Proof.
  intros w. split; [reflexivity|]. split; [intros ? ? ? ? ?; discriminate|]. split; [reflexivity|].
  split; [vm_compute; reflexivity|]. split; [split; [eexists; split; reflexivity|]; split; [intros ? Hx; injection Hx as <-; reflexivity|]; split; [discriminate|]; split; [intros ? Hx; discriminate|reflexivity]|].
  split; [vm_compute; repeat constructor; cbn; intuition discriminate|]. split; [|split; [|split; [|split]]].
  - apply h_map; [constructor| |].
    + intros k x [Hx|[Hx|[Hx|[]]]]; injection Hx as <- <-; [apply dr_holds; left; reflexivity|apply dr_holds; right; right; left; reflexivity|].
      apply h_rec; [|exact (rl_places "other.bin" eq_refl)]. intros sd _. eapply h_leaf; reflexivity.
    + cbn. repeat (apply NoDup_cons; [cbn; intuition discriminate|]). apply NoDup_nil.
  - apply dr_places. right. left. reflexivity.
  - intros Hx. inversion Hx as [| | | |? ? ? ? k1 x ? Hi Hd| | | |? ? ? ? ? Hu]; subst.
    + destruct Hi as [Hi|[Hi|[Hi|[]]]]; injection Hi as <- <-; inversion Hd as [| | | | |? ? ? ? ? ? ? Hc| | |]; subst; inversion Hc.
    + destruct Hu as (x & [] & _).
  - vm_compute. reflexivity.
  - let x := eval vm_compute in (save rt_env 10 ex_opts ($"new") (OMap dr_p rl_after []) (dr_start (OMap dr_p dr_dict []))) in
    match x with (Ok (?o, ?j), ?w1) => exists o, j, w1 end. split; [vm_compute; reflexivity|]. split; [vm_compute; reflexivity|]. split; [|vm_compute; discriminate].
    intros Hx. apply happened_first in Hx. revert Hx. vm_compute. intros Hx. repeat destruct Hx as [Hx|Hx]; try discriminate. contradiction.
Qed.
(** Three times [d.record("y", v, subdir="sub")]: the last one is in sub/sub/sub. *)
Example C73_nests_example :
  let vs := [blob "one"; blob "two"] in
  plain ($"sub") /\ t_subdir (from_path ($"b.bin")) = Some (join_sep []) /\ (forall v, In v vs -> is_storable rt_env v = true) /\ is_storable rt_env (blob "three") = true /\
  exists rs p' s' u' w', record_all rt_env 10 (dr_p, dr_dict, []) ($"y") ($"sub") (vs ++ [blob "three"]) (dr_start (OMap dr_p dr_dict [])) = (Ok (rs, (p', s', u')), w') /\
    assoc ($"y") s' = Some (ORec (blob "three") (mkTarget (Some ($"sub/sub/sub")) (Some ($"b")) (Some ($".bin"))) false None None).
Proof.
  intros vs. split; [repeat split; try discriminate; cbn; intuition discriminate|]. split; [reflexivity|]. split; [intros v [<-|[<-|[]]]; reflexivity|]. split; [reflexivity|].
  let x := eval vm_compute in (record_all rt_env 10 (dr_p, dr_dict, []) ($"y") ($"sub") [blob "one"; blob "two"; blob "three"] (dr_start (OMap dr_p dr_dict []))) in
    match x with (Ok (?rs, (?p, ?s, ?u)), ?w) => exists rs, p, s, u, w end.
  split; vm_compute; reflexivity.
Qed.
Print Assumptions C73_record_renames.
Print Assumptions C73_old_file_stays.
Print Assumptions C73_recording_again_nests.
