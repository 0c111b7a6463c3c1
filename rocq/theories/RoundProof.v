(** Saving and loading again: what serialization leaves on disk is enough to show the model again. *)
From Coq Require Import List Ascii String Bool Arith ZArith Lia.
From Verif Require Import Base PosixModel FsModel PathModel SerialModel StoreModel StoreFrame StoreMount StoreSpec StoreLocal StorePlace
     StoreRecord RoundSpec PathSpec MountSpec DirSpec PosixProof FsProof DirProof TargetProof MountProof HistoryProof PathFacts SerialSpec SerialProof.
Import ListNotations.

Local Arguments str_eq_dec : simpl never.
Local Arguments atom_eq_dec : simpl never.

(** ** Generic *)
Lemma mbind_run {A B} (m : M A) (f : A -> M B) w :
  mbind m f w = match m w with (Ok a, w') => f a w' | (Exn e, w') => (Exn e, w') end.
Proof. reflexivity. Qed.
Lemma mapM_keyed {K A B} (f : A -> M B) (l : list (K * A)) w :
  mapM (fun kv => v <- f (snd kv);; ret (fst kv, v)) l w =
  match mapM f (map snd l) w with (Ok vs, w') => (Ok (combine (map fst l) vs), w') | (Exn e, w') => (Exn e, w') end.
Proof.
  revert w. induction l as [|[k a] l IH]; intros w; [reflexivity|]. cbn [mapM map fst snd]. rewrite !mbind_run.
  destruct (f a w) as [[b|e] w1]; [|reflexivity]. unfold ret at 1. rewrite !mbind_run, IH.
  destruct (mapM f (map snd l) w1) as [[vs|e] w2]; reflexivity.
Qed.
Lemma mapM_str_keyed {A B} (f : A -> M B) (l : list (str * A)) w :
  mapM (fun kv => k <- lift (str_key (fst kv));; v <- f (snd kv);; ret (k, v)) (map (fun kv => (AStr (fst kv), snd kv)) l) w =
  match mapM f (map snd l) w with (Ok vs, w') => (Ok (combine (map fst l) vs), w') | (Exn e, w') => (Exn e, w') end.
Proof.
  revert w. induction l as [|[k a] l IH]; intros w; [reflexivity|]. cbn [mapM map fst snd]. rewrite !mbind_run.
  unfold lift at 1. cbn [str_key]. rewrite !mbind_run. destruct (f a w) as [[b|e] w1]; [|reflexivity].
  unfold ret at 1. rewrite !mbind_run, IH. destruct (mapM f (map snd l) w1) as [[vs|e] w2]; reflexivity.
Qed.
Lemma combine_fst {A B} (l : list A) (m : list B) : List.length l = List.length m -> map fst (combine l m) = l.
Proof. revert m. induction l as [|x l IH]; intros [|y m]; cbn; try congruence. intros H. f_equal. apply IH. congruence. Qed.
Lemma combine_snd {A B} (l : list A) (m : list B) : List.length l = List.length m -> map snd (combine l m) = m.
Proof. revert m. induction l as [|x l IH]; intros [|y m]; cbn; try congruence. intros H. f_equal. apply IH. congruence. Qed.
Lemma forall2_length {A B} (R : A -> B -> Prop) l m : Forall2 R l m -> List.length l = List.length m.
Proof. induction 1; cbn; congruence. Qed.
Lemma split_pairs {A B} (l : list (A * B)) : l = combine (map fst l) (map snd l).
Proof. induction l as [|[a b] l IH]; [reflexivity|]. cbn. rewrite <- IH. reflexivity. Qed.

(** The type a container is deserialized with. *)
Definition dty_of (o : obj) : option dty :=
  match o with
  | OModel c _ _ => Some (DModel c)
  | OSeq q _ _ => Some (DSeq (match q_runs q with Some _ => true | None => false end) (q_sto q))
  | OMap p _ _ => Some (DMap (p_sto p))
  | _ => None
  end.
Definition direct (o : obj) : Prop := dty_of o <> None.

Section Same.
Variables E E2 : senv.
Hypothesis Hsame : same_code E E2.
Lemma ser_ty_same t : ser_ty E2 t = ser_ty E t.
Proof. destruct Hsame as (H1 & H2 & _). unfold ser_ty. rewrite H2. reflexivity. Qed.
Lemma sto_ty_same t : sto_ty E2 t = sto_ty E t.
Proof. destruct Hsame as (H1 & H2 & H3 & _). unfold sto_ty. rewrite H1, H3. reflexivity. Qed.
Lemma sto_name_same o : sto_name E2 o = sto_name E o.
Proof. destruct Hsame as (H1 & _). destruct o; cbn; rewrite ?H1; reflexivity. Qed.
Lemma is_storable_same o : is_storable E2 o = is_storable E o.
Proof. unfold is_storable. rewrite sto_name_same. destruct (sto_name E o); [rewrite sto_ty_same|]; reflexivity. Qed.
End Same.

(** ** Looking at what was loaded *)
Lemma view_rec E K m v t pre we re w : is_storable E v = true -> view E K m (ORec v t pre we re) w = view E K m v w.
Proof. intros Hs. destruct m; [reflexivity|]. destruct v; try discriminate Hs; reflexivity. Qed.

Section Load.
Variable E2 : senv.
Variable D0 : str.
Hypothesis Hcwd : absolute (s_cwd E2).
Hypothesis Hdir : absolute D0.
Hypothesis Hlim : s_limit E2 = None.
Let D := location (s_cwd E2) D0.

Definition quiet (w w' : world) : Prop :=
  (forall q, file_at (w_fs w') q = file_at (w_fs w) q) /\ (forall j D1, absolute D1 -> mnt_ok j D1 w -> mnt_ok j D1 w').
Definition has (g : loc -> content -> Prop) (w : world) : Prop := forall l c, g l c -> file_at (w_fs w) l = Some c.
Definition Shown (n : nat) (g : loc -> content -> Prop) (j : nat) (o : obj) (t : tree) : Prop :=
  forall K m w, n <= K -> n < m -> mnt_ok j D0 w -> has g w -> exists w', view E2 K m o w = (Ok t, w') /\ quiet w w'.
Definition Loads (n : nat) (g : loc -> content -> Prop) (comps : list str) (x : option dty) (p : pser) (t : tree) : Prop :=
  forall K j cx w, n <= K -> sctx j comps cx -> mnt_ok j D0 w -> has g w ->
  exists o w', f_de (depth E2 K) (Some cx) x p w = (Ok o, w') /\ quiet w w' /\ Shown n g j o t /\ (x <> None -> direct o).

Lemma quiet_refl w : quiet w w. Proof. split; auto. Qed.
Lemma quiet_trans a b c : quiet a b -> quiet b c -> quiet a c.
Proof. intros [H1 H2] [G1 G2]. split; [intros q; rewrite G1; apply H1|auto]. Qed.
Lemma quiet_has g a b : quiet a b -> has g a -> has g b.
Proof. intros [H1 _] Hg l c Hl. rewrite H1. auto. Qed.
Lemma quiet_ok j a b : quiet a b -> mnt_ok j D0 a -> mnt_ok j D0 b.
Proof. intros [_ H] Ha. apply H; assumption. Qed.
Lemma Shown_mono n n' (g g' : loc -> content -> Prop) j o t : n <= n' -> (forall l c, g l c -> g' l c) -> Shown n g j o t -> Shown n' g' j o t.
Proof. intros Hn Hg H K m w HK Hm Hok Hh. apply H; [lia|lia|assumption|]. intros l c Hl. auto. Qed.
Lemma Loads_mono n n' (g g' : loc -> content -> Prop) comps x p t : n <= n' -> (forall l c, g l c -> g' l c) -> Loads n g comps x p t -> Loads n' g' comps x p t.
Proof.
  intros Hn Hg H K j cx w HK Hs Hok Hh. destruct (H K j cx w) as (o & w' & H1 & H2 & H3 & H4); [lia|assumption|assumption|intros l c Hl; auto|].
  exists o, w'. repeat (split; [assumption|]). split; [|assumption]. eapply Shown_mono; eassumption.
Qed.

Lemma mapM_loads n g comps ps ts : Forall2 (Loads n g comps None) ps ts -> forall K j cx w, n <= K -> sctx j comps cx -> mnt_ok j D0 w -> has g w ->
  exists os w', mapM (f_de (depth E2 K) (Some cx) None) ps w = (Ok os, w') /\ quiet w w' /\ Forall2 (Shown n g j) os ts.
Proof.
  induction 1 as [|p t ps ts Hp Hps IH]; intros K j cx w HK Hs Hok Hh.
  - exists [], w. split; [reflexivity|]. split; [apply quiet_refl|constructor].
  - destruct (Hp K j cx w HK Hs Hok Hh) as (o & w1 & H1 & H2 & H3 & _).
    destruct (IH K j cx w1 HK Hs (quiet_ok _ _ _ H2 Hok) (quiet_has _ _ _ H2 Hh)) as (os & w2 & G1 & G2 & G3).
    exists (o :: os), w2. split; [|split; [eapply quiet_trans; eassumption|constructor; assumption]].
    cbn [mapM]. unfold mbind. rewrite H1, G1. reflexivity.
Qed.
Lemma mapM_shown n g j os ts : Forall2 (Shown n g j) os ts -> forall K m w, n <= K -> n < m -> mnt_ok j D0 w -> has g w ->
  exists w', mapM (view E2 K m) os w = (Ok ts, w') /\ quiet w w'.
Proof.
  induction 1 as [|o t os ts Ho Hos IH]; intros K m w HK Hm Hok Hh.
  - exists w. split; [reflexivity|apply quiet_refl].
  - destruct (Ho K m w HK Hm Hok Hh) as (w1 & H1 & H2).
    destruct (IH K m w1 HK Hm (quiet_ok _ _ _ H2 Hok) (quiet_has _ _ _ H2 Hh)) as (w2 & G1 & G2).
    exists w2. split; [|eapply quiet_trans; eassumption]. cbn [mapM]. unfold mbind. rewrite H1, G1. reflexivity.
Qed.

(** Values put into records on the way. *)
Definition wrapped (v v' : obj) : Prop := v' = v \/ (is_storable E2 v = true /\ exists t pre, v' = ORec v t pre None None).
Lemma wrapped_shown n g j v v' t : wrapped v v' -> Shown n g j v t -> Shown n g j v' t.
Proof.
  intros [->|(Hs & tt & pre & ->)] H; [assumption|]. intros K m w HK Hm Hok Hh. rewrite view_rec by assumption. auto.
Qed.
Lemma wrap_new_wrapped f v : wrapped v (wrap_new E2 f v).
Proof. unfold wrap_new. destruct (mf_wrap f) as [[t pre]|]; [|left; reflexivity]. destruct (is_storable E2 v) eqn:Es; [right; eauto|left; reflexivity]. Qed.
Lemma seq_fold vs : forall q s q' s', fold_left (seq_append E2) vs (q, s) = (q', s') ->
  q_sub q' = q_sub q /\ q_pre q' = q_pre q /\ exists items, s' = s ++ items /\ Forall2 wrapped vs items.
Proof.
  induction vs as [|v vs IH]; intros q s q' s' H.
  - injection H as <- <-. repeat (split; [reflexivity|]). exists []. split; [rewrite app_nil_r; reflexivity|constructor].
  - cbn [fold_left] in H. unfold seq_append at 2 in H. destruct (is_storable E2 v) eqn:Es.
    + assert (Hr : exists q1 t pre, seq_make_record q v = (q1, ORec v t pre None None) /\ q_sub q1 = q_sub q /\ q_pre q1 = q_pre q).
      { unfold seq_make_record. destruct (q_runs q) as [[[stem nn] ss]|]; eexists _, _, _; repeat split. }
      destruct Hr as (q1 & t & pre & Hr & H1 & H2). rewrite Hr in H. apply IH in H as (G1 & G2 & items & G3 & G4).
      split; [congruence|]. split; [congruence|]. exists (ORec v t pre None None :: items). split; [rewrite G3, <- app_assoc; reflexivity|].
      constructor; [right; eauto|assumption].
    + apply IH in H as (G1 & G2 & items & G3 & G4). split; [assumption|]. split; [assumption|]. exists (v :: items).
      split; [rewrite G3, <- app_assoc; reflexivity|]. constructor; [left; reflexivity|assumption].
Qed.
Lemma assoc_del_new {A} k (l : list (str * A)) : ~ In k (map fst l) -> assoc_del k l = l.
Proof.
  induction l as [|[x v] l IH]; [reflexivity|]. cbn. intros H. destruct (str_eq_dec x k) as [->|Hne]; [exfalso; auto|].
  f_equal. apply IH. auto.
Qed.
Lemma map_fold p kvs : forall s, NoDup (map fst s ++ map fst kvs) ->
  exists items, fold_left (map_put E2 p) kvs s = s ++ items /\ map fst items = map fst kvs /\ Forall2 wrapped (map snd kvs) (map snd items).
Proof.
  induction kvs as [|[k v] kvs IH]; intros s Hn.
  - exists []. cbn. rewrite app_nil_r. repeat split. constructor.
  - cbn [fold_left]. unfold map_put at 2. cbn [fst snd map] in *. pose proof Hn as Hn'. apply NoDup_remove_2 in Hn'.
    rewrite assoc_del_new by (intros Hi; apply Hn'; apply in_or_app; left; exact Hi).
    set (v' := if is_storable E2 v then map_make_record p k v else v).
    destruct (IH (s ++ [(k, v')])) as (items & H1 & H2 & H3).
    { rewrite map_app, <- app_assoc. exact Hn. }
    exists ((k, v') :: items). split; [rewrite H1, <- app_assoc; reflexivity|]. split; [cbn; congruence|].
    cbn [map snd]. constructor; [|assumption]. unfold v'. destruct (is_storable E2 v) eqn:Es; [|left; reflexivity].
    right. split; [assumption|]. eexists _, _. reflexivity.
Qed.
Lemma wrapped_all n g j vs items ts : Forall2 wrapped vs items -> Forall2 (Shown n g j) vs ts -> Forall2 (Shown n g j) items ts.
Proof.
  intros H. revert ts. induction H as [|v v' vs items Hv Hvs IH]; intros ts Ht; inversion Ht; subst; constructor; auto.
  eapply wrapped_shown; eassumption.
Qed.

(** ** Deserializing each kind of object *)
Lemma f_de_some K cx d e w o w' : de_object E2 (depth E2 K) (Some cx) d (PDict e) w = (Ok o, w') -> (forall mk, o <> OMark mk) ->
  f_de (depth E2 (S K)) (Some cx) (Some d) (PDict e) w = (Ok o, w').
Proof.
  intros H Hm. cbn [depth f_de]. unfold de_body. unfold mbind at 1. rewrite H. destruct o; try reflexivity. exfalso. eapply Hm. reflexivity.
Qed.
Lemma f_de_typed K cx d nm e w : ser_ty E2 nm = Some d ->
  f_de (depth E2 (S K)) (Some cx) None (typed nm (PDict e)) w = f_de (depth E2 (S K)) (Some cx) (Some d) (PDict e) w.
Proof.
  intros H. cbn [depth f_de]. unfold de_body, typed.
  match goal with |- context [assoc_a (AStr SER_TYPE) ?l] => assert (Ha : assoc_a (AStr SER_TYPE) l = Some (PAtom (AStr nm))) by reflexivity end.
  rewrite Ha, H.
  match goal with |- context [assoc_a (AStr SER_CONTENT) ?l] => assert (Hb : assoc_a (AStr SER_CONTENT) l = Some (PDict e)) by reflexivity end.
  rewrite Hb. reflexivity.
Qed.
Lemma de_object_ok F cx d e w o w' (m : M obj) :
  (match d with DRec => de_rec E2 F (Some cx) e | DSeq runs sto => de_seq E2 F (Some cx) runs sto e | DMap sto => de_map E2 F (Some cx) sto e
   | DModel c => de_model E2 F (Some cx) c e | DMark k => ret (OMark (mkMark k (get_str "type" e))) end) = m ->
  m w = (Ok o, w') -> de_object E2 F (Some cx) d (PDict e) w = (Ok o, w').
Proof. intros <- H. unfold de_object, mbind, attempt. rewrite H. reflexivity. Qed.
Lemma Loads_typed n g comps d nm e t : ser_ty E2 nm = Some d -> Loads (S n) g comps (Some d) (PDict e) t -> Loads (S n) g comps None (typed nm (PDict e)) t.
Proof.
  intros Hn H K j cx w HK Hs Hok Hh. destruct K as [|K]; [lia|]. rewrite f_de_typed with (d := d) by assumption.
  destruct (H (S K) j cx w HK Hs Hok Hh) as (o & w' & H1 & H2 & H3 & _). exists o, w'. repeat (split; [assumption|]). congruence.
Qed.

Lemma Loads_atom n g comps a : Loads (S n) g comps None (PAtom a) (TAtom a).
Proof.
  intros K j cx w HK Hs Hok Hh. destruct K as [|K]; [lia|]. exists (OAtom a), w.
  split; [cbn [depth f_de]; unfold de_body; destruct a; reflexivity|]. split; [apply quiet_refl|]. split; [|congruence].
  intros K' m w2 _ Hm _ _. destruct m; [lia|]. exists w2. split; [reflexivity|apply quiet_refl].
Qed.
Lemma Loads_list n g comps ps ts : Forall2 (Loads n g comps None) ps ts -> Loads (S n) g comps None (PList ps) (TList ts).
Proof.
  intros Hp K j cx w HK Hs Hok Hh. destruct K as [|K]; [lia|].
  destruct (mapM_loads n g comps ps ts Hp K j cx w) as (os & w1 & H1 & H2 & H3); [lia|assumption|assumption|assumption|].
  exists (OList os), w1. split; [cbn [depth f_de]; unfold de_body, mbind; rewrite H1; reflexivity|]. split; [assumption|]. split; [|congruence].
  intros K' m w2 HK' Hm Hok2 Hh2. destruct m; [lia|]. destruct (mapM_shown n g j os ts H3 K' m w2) as (w3 & G1 & G2); [lia|lia|assumption|assumption|].
  exists w3. split; [|assumption]. cbn [view content_of fst]. unfold mbind, ret. cbn [fst]. rewrite G1. reflexivity.
Qed.
Lemma Loads_dict n g comps ks ps ts : List.length ks = List.length ps -> ~ In (AStr SER_TYPE) ks -> Forall2 (Loads n g comps None) ps ts ->
  Loads (S n) g comps None (PDict (combine ks ps)) (TDict (combine ks ts)).
Proof.
  intros Hl Hk Hp K j cx w HK Hs Hok Hh. destruct K as [|K]; [lia|].
  destruct (mapM_loads n g comps ps ts Hp K j cx w) as (os & w1 & H1 & H2 & H3); [lia|assumption|assumption|assumption|].
  assert (Hno : assoc_a (AStr SER_TYPE) (combine ks ps) = None).
  { destruct (assoc_a (AStr SER_TYPE) (combine ks ps)) eqn:Ea; [|reflexivity]. apply assoc_a_in in Ea. apply in_combine_l in Ea. contradiction. }
  exists (ODict (combine ks os)), w1. split.
  { cbn [depth f_de]. unfold de_body. rewrite Hno. unfold mbind at 1. unfold mbind at 1. rewrite mapM_keyed, combine_snd, combine_fst, H1 by assumption. reflexivity. }
  split; [assumption|]. split; [|congruence].
  assert (Hlo : List.length ks = List.length os). { rewrite Hl. rewrite (forall2_length _ _ _ Hp). symmetry. apply (forall2_length _ _ _ H3). }
  intros K' m w2 HK' Hm Hok2 Hh2. destruct m; [lia|]. destruct (mapM_shown n g j os ts H3 K' m w2) as (w3 & G1 & G2); [lia|lia|assumption|assumption|].
  exists w3. split; [|assumption]. cbn [view content_of]. unfold mbind at 1. unfold ret at 1. cbn [fst]. unfold mbind at 1.
  rewrite mapM_keyed, combine_snd, combine_fst, G1 by assumption. reflexivity.
Qed.

Definition seq_dict (q : seqcfg) (l : list pser) : list (atom * pser) :=
  match q_runs q with
  | None => []
  | Some (stem, n, ss) =>
      [(key "stem", PAtom (AStr stem)); (key "run_count", PAtom (AInt (Z.of_N n)))]
      ++ (if ss then [] else [(key "store_subdir", PAtom (ABool false))])
  end
  ++ [(key "store", PList l)] ++ str_entry "subdir" (q_sub q) ++ bool_entry "preload" (q_pre q).
Lemma seq_dict_get q l : let d := seq_dict q l in
  get "store" d = Some (PList l) /\ get_text "subdir" [] d = q_sub q /\ get_bool "preload" false d = q_pre q /\
  match q_runs q with
  | Some (stem, n, ss) => get_text "stem" [] d = stem /\ get "run_count" d = Some (PAtom (AInt (Z.of_N n))) /\ get_bool "store_subdir" true d = ss
  | None => True
  end.
Proof.
  destruct q as [sto sub pre [[[stem n] ss]|]]; unfold seq_dict; cbn [q_runs q_sub q_pre];
    [destruct ss|]; (destruct sub; destruct pre; repeat split; reflexivity).
Qed.
Lemma Loads_seq n g comps q ps ts : Forall2 (Loads n g comps None) ps ts ->
  Loads (S n) g comps (dty_of (OSeq q [] [])) (PDict (seq_dict q ps)) (seq_tree q ts).
Proof.
  intros Hp K j cx w HK Hs Hok Hh. destruct K as [|K]; [lia|].
  destruct (mapM_loads n g comps ps ts Hp K j cx w) as (os & w1 & H1 & H2 & H3); [lia|assumption|assumption|assumption|].
  destruct (seq_dict_get q ps) as (D1 & D2 & D3 & D4).
  destruct (fold_left (seq_append E2) os (mkSeq (q_sto q) (q_sub q) (q_pre q) (if (match q_runs q with Some _ => true | None => false end) then Some ($"run", 0%N, true) else None), [])) as [q' s'] eqn:Ef.
  pose proof Ef as Ef'. apply seq_fold in Ef' as (F1 & F2 & items & F3 & F4). cbn [q_sub q_pre app] in F1, F2, F3. subst s'.
  exists (OSeq q items []), w1. split.
  { cbn [dty_of]. apply f_de_some; [|discriminate]. eapply de_object_ok; [reflexivity|]. unfold de_seq. rewrite D1, D2, D3. unfold mbind. rewrite H1. rewrite Ef.
    rewrite F1, F2. destruct q as [sto sub pre [[[stem nn] ss]|]]; cbn [q_runs q_sto q_sub q_pre] in *; [|reflexivity].
    destruct D4 as (D4 & D5 & D6). rewrite D4, D5, D6, N2Z.id. reflexivity. }
  split; [assumption|]. split; [|intros _; discriminate].
  pose proof (wrapped_all _ _ _ _ _ _ F4 H3) as H4.
  intros K' m w2 HK' Hm Hok2 Hh2. destruct m; [lia|]. destruct (mapM_shown n g j items ts H4 K' m w2) as (w3 & G1 & G2); [lia|lia|assumption|assumption|].
  exists w3. split; [|assumption]. cbn [view content_of fst]. unfold mbind, ret. cbn [fst]. rewrite G1. reflexivity.
Qed.

Definition map_dict (p : mapcfg) (l : list (atom * pser)) : list (atom * pser) :=
  [(key "store", PDict l)] ++ str_entry "subdir" (p_sub p) ++ bool_entry "preload" (p_pre p)
  ++ bool_entry "store_by_key" (p_bykey p) ++ bool_entry "store_subdir" (p_insub p).
Lemma map_dict_get p l : let d := map_dict p l in
  get "store" d = Some (PDict l) /\
  mkMap (p_sto p) (get_text "subdir" [] d) (get_bool "preload" false d) (get_bool "store_by_key" false d) (get_bool "store_subdir" false d) = p.
Proof.
  destruct p as [sto sub pre bk ins]; unfold map_dict; cbn [p_sto p_sub p_pre p_bykey p_insub].
  destruct sub; destruct pre, bk, ins; split; reflexivity.
Qed.
Lemma Loads_map n g comps p ks ps ts : List.length ks = List.length ps -> NoDup ks -> Forall2 (Loads n g comps None) ps ts ->
  Loads (S n) g comps (dty_of (OMap p [] [])) (PDict (map_dict p (map (fun kv => (AStr (fst kv), snd kv)) (combine ks ps)))) (map_tree p (combine ks ts)).
Proof.
  intros Hl Hk Hp K j cx w HK Hs Hok Hh. destruct K as [|K]; [lia|].
  destruct (mapM_loads n g comps ps ts Hp K j cx w) as (os & w1 & H1 & H2 & H3); [lia|assumption|assumption|assumption|].
  destruct (map_dict_get p (map (fun kv => (AStr (fst kv), snd kv)) (combine ks ps))) as (D1 & D2).
  assert (Hlo : List.length ks = List.length os). { rewrite Hl. rewrite (forall2_length _ _ _ Hp). symmetry. apply (forall2_length _ _ _ H3). }
  destruct (map_fold p (combine ks os) []) as (items & F1 & F2 & F3). { cbn [map app]. rewrite combine_fst by assumption. assumption. }
  rewrite combine_fst in F2 by assumption. rewrite combine_snd in F3 by assumption. cbn [app] in F1.
  exists (OMap p items []), w1. split.
  { cbn [dty_of]. apply f_de_some; [|discriminate]. eapply de_object_ok; [reflexivity|]. unfold de_map. rewrite D1, D2. unfold mbind at 1.
    rewrite mapM_str_keyed, combine_snd, combine_fst, H1, F1 by assumption. reflexivity. }
  split; [assumption|]. split; [|intros _; discriminate].
  pose proof (wrapped_all _ _ _ _ _ _ F3 H3) as H4.
  intros K' m w2 HK' Hm Hok2 Hh2. destruct m; [lia|]. destruct (mapM_shown n g j (map snd items) ts H4 K' m w2) as (w3 & G1 & G2); [lia|lia|assumption|assumption|].
  exists w3. split; [|assumption]. cbn [view content_of]. unfold mbind at 1. unfold ret at 1. cbn [fst]. unfold mbind at 1.
  rewrite mapM_keyed, G1, F2. reflexivity.
Qed.

(** Fields of a modelclass instance: what the dict has to say about each of them. *)
Definition told (n : nat) (g : loc -> content -> Prop) (comps : list str) (d : list (atom * pser)) (f : mfield) (t : tree) : Prop :=
  (assoc_a (AStr (mf_name f)) d = None /\ t = TAtom ANone /\ (mf_default f = None \/ mf_default f = Some (OAtom ANone))) \/
  (exists p, assoc_a (AStr (mf_name f)) d = Some p /\ p <> PAtom ANone /\ Loads n g comps None p t).
Lemma de_fields_ok n g comps d fds :
  (forall f, In f fds -> if mf_noser f then assoc_a (AStr (mf_name f)) d = None else exists t, told n g comps d f t) ->
  forall K j cx w, n <= K -> sctx j comps cx -> mnt_ok j D0 w -> has g w ->
  exists fs w', de_fields E2 (depth E2 K) (Some cx) fds d w = (Ok fs, w') /\ quiet w w' /\ map fst fs = map mf_name fds /\
    Forall2 (fun f kv => mf_noser f = false -> forall t, told n g comps d f t -> Shown n g j (snd kv) t) fds fs.
Proof.
  induction fds as [|f fds IH]; intros Hf K j cx w HK Hs Hok Hh.
  - exists [], w. split; [reflexivity|]. split; [apply quiet_refl|]. split; [reflexivity|constructor].
  - assert (Hv : exists v w1, (match assoc_a (AStr (mf_name f)) d with
           | Some (PAtom ANone) | None => ret (match mf_default f with Some v => v | None => OAtom ANone end)
           | Some p => f_de (depth E2 K) (Some cx) None p end) w = (Ok v, w1) /\ quiet w w1 /\
           (mf_noser f = false -> forall t, told n g comps d f t -> Shown n g j v t)).
    { pose proof (Hf f (or_introl eq_refl)) as H0. destruct (mf_noser f) eqn:En.
      - rewrite H0. eexists _, w. split; [reflexivity|]. split; [apply quiet_refl|discriminate].
      - destruct H0 as [t [(Ha & _ & Hd)|(p & Ha & Hp & Hl)]].
        + rewrite Ha. exists (OAtom ANone), w. split; [destruct Hd as [->| ->]; reflexivity|]. split; [apply quiet_refl|].
          intros _ t' [(_ & -> & _)|(p & Ha' & _)]; [|congruence].
          intros K' m w2 _ Hm _ _. destruct m; [lia|]. exists w2. split; [reflexivity|apply quiet_refl].
        + rewrite Ha. assert (Hex : exists o w1, f_de (depth E2 K) (Some cx) None p w = (Ok o, w1) /\ quiet w w1).
          { destruct (Hl K j cx w HK Hs Hok Hh) as (o & w1 & H1 & H2 & _). eauto. }
          destruct Hex as (o & w1 & H1 & H2). exists o, w1. split; [destruct p as [[]| |]; try exact H1; congruence|]. split; [assumption|].
          intros _ t' [(Ha' & _)|(p' & Ha' & Hp' & Hl')]; [congruence|]. assert (p' = p) by congruence. subst p'.
          destruct (Hl' K j cx w HK Hs Hok Hh) as (o' & w1' & G1 & _ & G3 & _). rewrite H1 in G1. injection G1 as <- <-. exact G3. }
    destruct Hv as (v & w1 & V1 & V2 & V3).
    destruct (IH (fun f' Hi => Hf f' (or_intror Hi)) K j cx w1 HK Hs (quiet_ok _ _ _ V2 Hok) (quiet_has _ _ _ V2 Hh)) as (fs & w2 & F1 & F2 & F3 & F4).
    exists ((mf_name f, wrap_new E2 f v) :: fs), w2. split.
    { cbn [de_fields]. unfold mbind at 1. rewrite V1. unfold mbind. rewrite F1. reflexivity. }
    split; [eapply quiet_trans; eassumption|]. split; [cbn; congruence|]. constructor; [|assumption].
    intros H0 t Ht. cbn [snd]. eapply wrapped_shown; [apply wrap_new_wrapped|auto].
Qed.
Lemma told_fields n g comps d j fds fs : NoDup (map mf_name fds) -> map fst fs = map mf_name fds ->
  Forall2 (fun f kv => mf_noser f = false -> forall t, told n g comps d f t -> Shown n g j (snd kv) t) fds fs ->
  forall fl ts, (forall f, In f fl -> In f fds /\ mf_noser f = false) -> Forall2 (told n g comps d) fl ts ->
  exists vs, Forall2 (fun f v => assoc (mf_name f) fs = Some v) fl vs /\ Forall2 (Shown n g j) vs ts.
Proof.
  intros Hnd Hk Hf. assert (Hone : forall f, In f fds -> exists v, assoc (mf_name f) fs = Some v /\ (mf_noser f = false -> forall t, told n g comps d f t -> Shown n g j v t)).
  { clear - Hnd Hk Hf. revert Hnd Hk. induction Hf as [|f kv fds fs H Hf IH]; intros Hnd Hk f0 Hi; [contradiction|].
    destruct kv as [k v]. cbn [map fst snd] in *. injection Hk as -> Hk. inversion Hnd as [|? ? N1 N2]; subst. destruct Hi as [<-|Hi].
    - exists v. split; [|assumption]. cbn. destruct (str_eq_dec (mf_name f) (mf_name f)); congruence.
    - destruct (IH N2 Hk f0 Hi) as (v0 & V1 & V2). exists v0. split; [|assumption]. cbn. destruct (str_eq_dec (mf_name f) (mf_name f0)) as [Hx|]; [|assumption].
      exfalso. apply N1. rewrite Hx. apply in_map. assumption. }
  intros fl ts Hfl Ht. induction Ht as [|f t fl ts H Ht IH].
  - exists []. split; constructor.
  - destruct (Hfl f (or_introl eq_refl)) as [Hi Hno]. destruct (Hone f Hi) as (v & V1 & V2).
    destruct IH as (vs & G1 & G2); [intros f' Hf'; apply Hfl; right; assumption|]. exists (v :: vs). split; constructor; auto.
Qed.
Lemma mapM_fields {A} (look : obj -> M A) fs fl vs : Forall2 (fun f v => assoc (mf_name f) fs = Some v) fl vs -> forall w,
  mapM (fun f => match assoc (mf_name f) fs with Some v => t <- look v;; ret (mf_name f, t) | None => raise AttributeError end) fl w =
  match mapM look vs w with (Ok ts, w') => (Ok (combine (map mf_name fl) ts), w') | (Exn e, w') => (Exn e, w') end.
Proof.
  induction 1 as [|f v fl vs H Hf IH]; intros w; [reflexivity|]. cbn [mapM map]. rewrite H, !mbind_run.
  destruct (look v w) as [[b|e] w1]; [|reflexivity]. unfold ret at 1. rewrite !mbind_run, IH.
  destruct (mapM look vs w1) as [[ts|e] w2]; reflexivity.
Qed.
Lemma Loads_model n g comps c fds d ts : k_kind (s_class E2 c) = SModel fds -> NoDup (map mf_name fds) ->
  (forall f, In f fds -> mf_noser f = true -> assoc_a (AStr (mf_name f)) d = None) ->
  Forall2 (told n g comps d) (filter (fun f => negb (mf_noser f)) fds) ts ->
  Loads (S n) g comps (Some (DModel c)) (PDict d) (TModel c (combine (map mf_name (filter (fun f => negb (mf_noser f)) fds)) ts)).
Proof.
  intros Hk Hnd Hno Ht K j cx w HK Hs Hok Hh. destruct K as [|K]; [lia|].
  destruct (de_fields_ok n g comps d fds) with (K := K) (j := j) (cx := cx) (w := w) as (fs & w1 & F1 & F2 & F3 & F4);
    [|lia|assumption|assumption|assumption|].
  { intros f Hf. destruct (mf_noser f) eqn:En; [auto|]. assert (Hi : In f (filter (fun f => negb (mf_noser f)) fds)) by (apply filter_In; rewrite En; auto).
    clear - Ht Hi. induction Ht as [|a b l1 l2 Hab Hl IHl]; [contradiction|]. destruct Hi as [<-|Hi]; eauto. }
  destruct (told_fields n g comps d j fds fs Hnd F3 F4 (filter (fun f => negb (mf_noser f)) fds) ts) as (vs & G1 & G2).
  { intros f Hf. apply filter_In in Hf as [Hf Hf2]. split; [assumption|]. destruct (mf_noser f); [discriminate|reflexivity]. }
  { assumption. }
  exists (OModel c fs []), w1. split.
  { apply f_de_some; [|discriminate]. eapply de_object_ok; [reflexivity|]. unfold de_model. rewrite Hk, mbind_run, F1. reflexivity. }
  split; [assumption|]. split; [|intros _; discriminate].
  intros K' m w2 HK' Hm Hok2 Hh2. destruct m; [lia|]. destruct (mapM_shown n g j vs ts G2 K' m w2) as (w3 & S1 & S2); [lia|lia|assumption|assumption|].
  exists w3. split; [|assumption]. cbn [view content_of]. rewrite mbind_run. unfold ret at 1. cbn [fst]. rewrite Hk, mbind_run.
  rewrite (mapM_fields (view E2 K' m) fs _ vs G1), S1. reflexivity.
Qed.

(** ** Records *)
Definition solid (o : obj) : Prop := match o with ORec _ _ _ _ _ | OUnloaded _ _ _ _ | OUndefined _ | OMark _ => False | _ => True end.
Definition Reads (n : nat) (g : loc -> content -> Prop) (comps : list str) (out : target) (ty : str) (t : tree) : Prop :=
  forall K j cx w, n <= K -> sctx j comps cx -> mnt_ok j D0 w -> has g w ->
  exists o w', ctx_read E2 (depth E2 K) cx out (Some ty) w = (Ok o, w') /\ quiet w w' /\ Shown n g j o t /\ solid o.
Lemma direct_solid o : direct o -> solid o.
Proof. unfold direct. destruct o; cbn; auto; congruence. Qed.
Lemma Reads_leaf n (g : loc -> content -> Prop) comps out cs ty c x d : D = comps_cp D0 -> places out cs -> g (D ++ comps ++ cs) x -> sto_ty E2 ty = Some (STLeaf c) ->
  (forall k, s_read E2 c k x = Ok d) -> Reads n g comps out ty (TLeaf c d).
Proof.
  intros HD Hp Hg Hty Hr K j cx w HK Hs Hok Hh.
  destruct (ctx_read_leaf E2 j D0 (depth E2 K) cx comps out cs w ty c x d Hcwd Hdir Hlim HD Hok Hs Hp (Hh _ _ Hg) Hty Hr) as (w' & H1 & H2 & H3).
  exists (OLeaf c d), w'. split; [assumption|]. split; [split; assumption|]. split; [|exact I].
  intros K' m w2 _ Hm _ _. destruct m; [lia|]. exists w2. split; [reflexivity|apply quiet_refl].
Qed.
Lemma Reads_obj n (g : loc -> content -> Prop) comps out cs ty d fr p t : D = comps_cp D0 -> places out cs -> g (D ++ comps ++ cs) (Json (to_json fr p)) ->
  json_ready p -> sto_ty E2 ty = Some (STObj d) -> Loads n g (comps ++ removelast cs) (Some d) p t -> Reads n g comps out ty t.
Proof.
  intros HD Hp Hg Hj Hty Hl K j cx w HK Hs Hok Hh. pose proof (places_clean out cs Hp) as [_ Hne].
  assert (Hcs : exists l0 z, cs = l0 ++ [z]) by (destruct (exists_last Hne) as (l0 & z & Hz); eauto). destruct Hcs as (l0 & z & ->).
  pose proof (Hh _ _ Hg) as Hf.
  destruct (read_place E2 j D0 Hcwd Hdir comps cx out (l0 ++ [z]) w Hlim HD Hok Hs Hp) as (local & nt & w1 & H1 & H2 & H3 & H4 & H5).
  { rewrite removelast_last. intros q Hq. rewrite !app_assoc in Hf. eapply file_free; [exact Hf|]. rewrite <- app_assoc. exact Hq. }
  set (l := D ++ comps ++ l0 ++ [z]) in *. set (w1' := logged (EvRead l) w1).
  assert (Hq1 : quiet w w1').
  { split; [exact H4|]. intros j1 D1 HD1 Hj1. apply (ctx_prepare_ign_ok E2 j1 D1 _ _ _ _ _ Hcwd HD1 H1 Hj1). }
  destruct (Hl K j local w1') as (o & w2 & G1 & G2 & G3 & G4); [assumption|assumption|eapply quiet_ok; eassumption|eapply quiet_has; eassumption|].
  exists o, w2. split; [|split; [eapply quiet_trans; eassumption|split; [assumption|apply direct_solid, G4; discriminate]]].
  unfold ctx_read, attempt. rewrite mbind_run. rewrite mbind_run. rewrite H1.
  rewrite mbind_run. fold D in H5. rewrite (H5 w1 H3). fold l. unfold read_storable. rewrite Hty. rewrite mbind_run. unfold m_read at 1. rewrite op_free by assumption.
  assert (Hlk : lookup (w_fs w1) l = Some (File (Json (to_json fr p)))).
  { rewrite <- H4 in Hf. unfold file_at in Hf. destruct (lookup _ _) as [[|]|]; congruence. }
  cbn [logged w_fs]. rewrite Hlk. pose proof (through_json_ready fr p Hj) as Ht. unfold through_json in Ht. rewrite Ht. fold w1'. rewrite G1. reflexivity.
Qed.
Definition rec_dict (z ty : str) (pre : bool) : list (atom * pser) :=
  [(key "target", PAtom (AStr z)); (key "sto_type", PAtom (AStr ty))] ++ (if pre then [(key "preload", PAtom (ABool true))] else []).
Lemma Loads_rec n g comps z ty pre t : Reads n g comps (from_path z) ty t -> Loads (S n) g comps None (typed n_record (PDict (rec_dict z ty pre))) t.
Proof.
  intros Hr K j cx w HK Hs Hok Hh. destruct K as [|K]; [lia|].
  assert (Hdir_ : exists dir, ctx_dir cx w = (Ok dir, w)).
  { destruct Hok as [(m & Hm & _) _]. destruct Hs as (Hi & _). unfold ctx_dir, m_dir_of. rewrite mbind_run, Hi, Hm. eexists. reflexivity. }
  destruct Hdir_ as [dir Hdr]. destruct pre.
  - destruct (Hr K j cx w) as (o & w1 & H1 & H2 & H3 & H4); [lia|assumption|assumption|assumption|].
    exists (ORec o (from_path z) true None None), w1. split; [|split; [assumption|split; [|congruence]]].
    + pose proof (de_preload_form E2 K cx w dir z (Some ty) Hdr) as Hd. unfold deserialize in Hd.
      change (preload_form z (Some ty)) with (typed n_record (PDict (rec_dict z ty true))) in Hd. rewrite Hd.
      cbn [rec_load]. rewrite mbind_run, H1. destruct o; try contradiction; reflexivity.
    + intros K' m w2 HK' Hm Hok2 Hh2. destruct (H3 K' m w2) as (w3 & V1 & V2); [lia|lia|assumption|assumption|]. exists w3. split; [|assumption].
      destruct m; [lia|]. destruct o; try contradiction; exact V1.
  - exists (ORec (OUnloaded (Some ty) (from_path z) dir cx) (from_path z) false None None), w. split; [|split; [apply quiet_refl|split; [|congruence]]].
    + pose proof (de_record_form E2 K cx w dir z (Some ty) Hdr) as Hd. unfold deserialize in Hd.
      change (record_form z (Some ty)) with (typed n_record (PDict (rec_dict z ty false))) in Hd. exact Hd.
    + intros K' m w2 HK' Hm Hok2 Hh2. destruct (Hr K' j cx w2) as (o & w3 & H1 & H2 & H3 & H4); [lia|assumption|assumption|assumption|].
      destruct (H3 K' m w3) as (w4 & V1 & V2); [lia|lia|eapply quiet_ok; eassumption|eapply quiet_has; eassumption|].
      exists w4. split; [|eapply quiet_trans; eassumption]. destruct m; [lia|]. cbn [view content_of]. rewrite mbind_run. rewrite mbind_run. cbn [rec_load].
      rewrite mbind_run, H1. destruct o; try contradiction; exact V1.
Qed.
End Load.

(** ** Serializing *)
Section Save.
Variables E E2 : senv.
Variable i : nat.
Variable D0 : str.
Hypothesis Hcwd : absolute (s_cwd E).
Hypothesis Hdir : absolute D0.
Hypothesis Hret : s_retouch E = $"auto" \/ s_retouch E = $"quit".
Hypothesis Hval : s_validate E = true.
Hypothesis Hreg : registered_classes E.
Hypothesis Huid : ordinary_uuids E.
Hypothesis Hfai : faithful_methods E.
Hypothesis Hsame : same_code E E2.
Hypothesis Hlim : s_limit E2 = None.
Let D := location (s_cwd E) D0.
Notation ok := (mnt_ok i D0).

Lemma Hcwd2 : absolute (s_cwd E2). Proof. destruct Hsame as (_ & _ & _ & _ & ->). exact Hcwd. Qed.
Lemma HD2 : location (s_cwd E2) D0 = D. Proof. destruct Hsame as (_ & _ & _ & _ & ->). reflexivity. Qed.
Lemma Hun : In (s_retouch E) unattended.
Proof. destruct Hret as [-> | ->]; [left|right; left]; reflexivity. Qed.

(** Files handed out by the mount. *)
Definition claimed (w : world) (l : loc) : Prop :=
  exists m u r, nth_error (w_mounts w) i = Some m /\ In u (m_touched m) /\ rel_target u r /\ l = D ++ r.
Definition claims_kept (w w' : world) : Prop :=
  forall l, claimed w l -> claimed w' l /\ file_at (w_fs w') l = file_at (w_fs w) l.
(** What is handed out in between has been written in between. *)
Definition claims_filled (w w' : world) : Prop :=
  exists evs, w_log w' = evs ++ w_log w /\ forall l, claimed w' l -> claimed w l \/ In (EvWrite l) evs.
Definition grows (w w' : world) : Prop := claims_kept w w' /\ claims_filled w w'.
Definition fresh (w w' : world) (l : loc) (c : content) : Prop :=
  claimed w' l /\ ~ claimed w l /\ file_at (w_fs w') l = Some c.
Definition Sees (n : nat) (o : obj) (t : tree) : Prop := forall K m w, n < m -> view E K m o w = (Ok t, w).
Notation L := (Loads E2 D0).
Definition Saved (n : nat) (comps : list str) (x : option dty) (w w' : world) (o : obj) (p : pser) : Prop :=
  grows w w' /\ ok w' /\ json_ready p /\ (o <> OAtom ANone -> p <> PAtom ANone) /\
  exists t, Sees n o t /\ L n (fresh w w') comps x p t.

Lemma grows_refl w : grows w w. Proof. split; [intros l H; auto|]. exists []. split; [reflexivity|auto]. Qed.
Lemma grows_trans a b c : grows a b -> grows b c -> grows a c.
Proof.
  intros [H (e1 & L1 & K1)] [G (e2 & L2 & K2)]. split.
  - intros l Hl. destruct (H l Hl) as [H1 H2]. destruct (G l H1) as [G1 G2]. split; [assumption|congruence].
  - exists (e2 ++ e1). split; [rewrite L2, L1, app_assoc; reflexivity|]. intros l Hl. rewrite in_app_iff. destruct (K2 l Hl) as [Hb|]; [|auto]. destruct (K1 l Hb); auto.
Qed.
Lemma fresh_left a b c l x : grows a b -> grows b c -> fresh a b l x -> fresh a c l x.
Proof. intros H [G _] (F1 & F2 & F3). destruct (G l F1) as [G1 G2]. repeat split; [assumption|assumption|congruence]. Qed.
Lemma fresh_right a b c l x : grows a b -> grows b c -> fresh b c l x -> fresh a c l x.
Proof. intros [H _] G (F1 & F2 & F3). repeat split; [assumption| |assumption]. intros Hc. apply F2. apply (H l Hc). Qed.
Lemma forall2_mono {A B} (R S : A -> B -> Prop) l m : (forall a b, R a b -> S a b) -> Forall2 R l m -> Forall2 S l m.
Proof. intros H. induction 1; constructor; auto. Qed.
Lemma loads_all n (g g' : loc -> content -> Prop) comps ps ts : (forall l c, g l c -> g' l c) -> Forall2 (L n g comps None) ps ts -> Forall2 (L n g' comps None) ps ts.
Proof. intros H. apply forall2_mono. intros p t Hp. eapply Loads_mono; [apply le_n|exact H|exact Hp]. Qed.

Lemma mapM_saved {A B} (f : A -> M B) (ob : A -> obj) (ps : B -> pser) (Q : B -> Prop) n comps l :
  (forall x w y w', In x l -> ok w -> f x w = (Ok y, w') -> Saved n comps None w w' (ob x) (ps y) /\ Q y) ->
  forall w ys w', ok w -> mapM f l w = (Ok ys, w') ->
  grows w w' /\ ok w' /\ (forall p, In p (map ps ys) -> json_ready p) /\ Forall Q ys /\
  exists ts, Forall2 (Sees n) (map ob l) ts /\ Forall2 (L n (fresh w w') comps None) (map ps ys) ts.
Proof.
  induction l as [|x l IH]; intros Hf w ys w' Hok H.
  - injection H as <- <-. split; [apply grows_refl|]. split; [assumption|]. split; [intros p []|]. split; [constructor|]. exists []. split; constructor.
  - cbn [mapM] in H. apply mbind_ok in H as (y & w1 & H1 & H). apply mbind_ok in H as (ys0 & w2 & H2 & H). unfold ret in H. injection H as <- <-.
    destruct (Hf x w y w1 (or_introl eq_refl) Hok H1) as [(S1 & S2 & S3 & S4 & t & S5 & S6) Hq].
    destruct (IH (fun a w y w' Ha => Hf a w y w' (or_intror Ha)) w1 ys0 w2 S2 H2) as (G1 & G2 & G3 & G4 & ts & G5 & G6).
    split; [eapply grows_trans; eassumption|]. split; [assumption|]. split; [intros p [<-|Hp]; auto|]. split; [constructor; assumption|].
    exists (t :: ts). split; [constructor; assumption|]. cbn [map]. constructor.
    + eapply Loads_mono; [apply le_n| |exact S6]. intros l0 c Hl. eapply fresh_left; eassumption.
    + eapply loads_all; [|exact G6]. intros l0 c Hl. eapply fresh_right; eassumption.
Qed.
Lemma mapM_sees n os ts : Forall2 (Sees n) os ts -> forall K m w, n < m -> mapM (view E K m) os w = (Ok ts, w).
Proof.
  induction 1 as [|o t os ts H Hs IH]; intros K m w Hm; [reflexivity|]. cbn [mapM]. rewrite mbind_run, (H K m w Hm), mbind_run, (IH K m w Hm). reflexivity.
Qed.

(** JSON forms *)
Ltac keys := repeat (apply NoDup_cons; [cbn [In]; intuition discriminate|]); apply NoDup_nil.
Lemma seq_ready q ps : (forall p, In p ps -> json_ready p) -> json_ready (PDict (seq_dict q ps)).
Proof.
  intros Hp. assert (Hl : json_ready (PList ps)) by (constructor; assumption). unfold seq_dict, str_entry, bool_entry, key.
  destruct q as [sto sub pre [[[stem n] ss]|]]; cbn [q_runs q_sub q_pre]; [destruct ss|]; (destruct sub; destruct pre; cbn [app]; constructor;
    try (intros k x H; cbn [In] in H; repeat destruct H as [H|H]; try contradiction; injection H as <- <-; eexists; reflexivity);
    try (cbn [map fst]; keys);
    intros k x H; cbn [In] in H; repeat destruct H as [H|H]; try contradiction; injection H as <- <-; (assumption || constructor)).
Qed.
Lemma str_dict_ready ks ps : List.length ks = List.length ps -> NoDup ks -> (forall p, In p ps -> json_ready p) ->
  json_ready (PDict (map (fun kv => (AStr (fst kv), snd kv)) (combine ks ps))).
Proof.
  intros Hl Hn Hp. constructor.
  - intros k x H. apply in_map_iff in H as ([a b] & H & _). injection H as <- <-. eauto.
  - rewrite map_map. cbn [fst]. rewrite <- (map_map fst AStr). rewrite combine_fst by assumption. apply FinFun.Injective_map_NoDup; [|assumption].
    intros a b H. congruence.
  - intros k x H. apply in_map_iff in H as ([a b] & H & Hi). injection H as <- <-. apply in_combine_r in Hi. auto.
Qed.
Lemma map_ready p d : json_ready (PDict d) -> json_ready (PDict (map_dict p d)).
Proof.
  intros Hd. unfold map_dict, str_entry, bool_entry, key.
  destruct p as [sto sub pre bk ins]; cbn [p_sub p_pre p_bykey p_insub]. destruct sub; destruct pre, bk, ins; cbn [app]; constructor;
    try (intros k x H; cbn [In] in H; repeat destruct H as [H|H]; try contradiction; injection H as <- <-; eexists; reflexivity);
    try (cbn [map fst]; keys);
    intros k x H; cbn [In] in H; repeat destruct H as [H|H]; try contradiction; injection H as <- <-; (assumption || constructor).
Qed.
Lemma rec_ready z ty pre : json_ready (PDict (rec_dict z ty pre)).
Proof.
  unfold rec_dict, key. destruct pre; cbn [app]; constructor;
    try (intros k x H; cbn [In] in H; repeat destruct H as [H|H]; try contradiction; injection H as <- <-; eexists; reflexivity);
    try (cbn [map fst]; keys);
    intros k x H; cbn [In] in H; repeat destruct H as [H|H]; try contradiction; injection H as <- <-; constructor.
Qed.

(** Handing out one more file. *)
Lemma gave_claims p w u rest rest' w' : gave E i D0 p None w u rest rest' w' -> ok w ->
  (forall l, claimed w' l <-> claimed w l \/ l = D ++ rest') /\ ~ claimed w (D ++ rest') /\
  (forall q, file_at (w_fs w') q = file_at (w_fs w) q) /\ D = comps_cp D0.
Proof.
  intros (m & touched & fs' & G1 & G2 & G3 & G4 & G5 & -> & G7 & G8 & G9 & G10 & G11) Hok.
  destruct G10 as [[-> Hnew]|(_ & _ & _ & Hc)].
  2:{ exfalso. unfold eff_choice in Hc. destruct Hret as [Hr|Hr]; rewrite Hr in Hc; cbn in Hc; destruct Hc as [Hc|[Hc|[]]]; discriminate. }
  assert (Hm' : nth_error (set_nth i (set_touched m (m_touched m ++ [u])) (w_mounts w)) i = Some (set_touched m (m_touched m ++ [u]))).
  { rewrite nth_set_nth. destruct (Nat.eq_dec i i); [|congruence]. rewrite G1. reflexivity. }
  split; [|split; [|split; [exact G7|exact G9]]].
  - intros l. split.
    + intros (m1 & v & r & C1 & C2 & C3 & ->). cbn [w_mounts] in C1. rewrite Hm' in C1. injection C1 as <-. cbn [set_touched m_touched] in C2.
      apply in_app_or in C2 as [C2|[<-|[]]].
      * left. exists m, v, r. auto.
      * right. f_equal. eapply rel_target_unique; eassumption.
    + intros [(m1 & v & r & C1 & C2 & C3 & ->)| ->].
      * rewrite G1 in C1. injection C1 as <-. exists (set_touched m (m_touched m ++ [u])), v, r. cbn [w_mounts]. split; [assumption|]. split; [apply in_or_app; left; exact C2|auto].
      * exists (set_touched m (m_touched m ++ [u])), u, rest'. cbn [w_mounts]. split; [assumption|]. split; [apply in_or_app; right; left; reflexivity|auto].
  - intros (m1 & v & r & C1 & C2 & C3 & C4). rewrite G1 in C1. injection C1 as <-. apply app_inv_head in C4. subst r.
    destruct Hok as [(m1 & M1 & M2 & M3) _]. rewrite G1 in M1. injection M1 as <-.
    assert (Ht : in_touched u (m_touched m) = true). { apply (in_touched_rel u rest'); [assumption|apply M3|eauto]. } congruence.
Qed.
Lemma claimed_mounts w w' l : w_mounts w' = w_mounts w -> claimed w' l <-> claimed w l.
Proof. intros H. unfold claimed. rewrite H. reflexivity. Qed.
Lemma m_write_logged l c w u w' : m_write E l c w = (Ok u, w') -> w_log w' = EvWrite l :: w_log w.
Proof. intros H. apply m_write_inv in H. inversion H; subst. reflexivity. Qed.
Lemma m_write_ok l c w u w' : m_write E l c w = (Ok u, w') -> w_mounts w' = w_mounts w /\
  (forall q, file_at (w_fs w') q = if loc_eq_dec q l then Some c else file_at (w_fs w) q) /\ (well_formed (w_fs w) -> well_formed (w_fs w')).
Proof.
  intros H. apply m_write_inv in H. inversion H as [| |fs Hw Hu Hw1]; subst. split; [reflexivity|]. split; [apply (write_file_lookup _ _ _ _ Hw)|].
  intros Hwf. cbn [set_fs w_fs logged]. eapply write_file_wf; eassumption.
Qed.

Lemma rec_target_places content t w t' w' : ordinary E content t -> (exists x, usual_suffix E content x) ->
  rec_target E content t w = (Ok t', w') -> exists cs, places t' cs.
Proof.
  intros Ho [x0 Hx] H.
  assert (Hsuf : usual_suffix E content (match ext_of E content with Some x => x | None => if json_like E content then $".json" else s_suffix E end)).
  { destruct Hx as [c d j x Hk|c d Hk|c d Hk|c fs u|q s u|p s u]; cbn; try constructor.
    - rewrite Hk. econstructor. exact Hk.
    - rewrite Hk. apply us_dataclass. assumption.
    - rewrite Hk. apply us_other. assumption. }
  assert (Hc : exists sd st su, t' = mkTarget (Some sd) (Some st) (Some su) /\ (t_subdir t = Some sd \/ t_subdir t = None /\ sd = []) /\
    (t_stem t = Some st \/ t_stem t = None /\ (exists k, st = s_uuid E k)) /\ (t_suffix t = Some su \/ t_suffix t = None /\ usual_suffix E content su)).
  { unfold rec_target in H. destruct t as [sd st su]. destruct (is_complete (mkTarget sd st su)) eqn:Ec.
    - unfold is_complete in Ec. cbn in Ec. destruct sd as [sd|]; [|discriminate]. destruct st as [st|]; [|discriminate]. destruct su as [su|]; [|discriminate].
      unfold ret in H. injection H as <- <-. exists sd, st, su. cbn. auto.
    - unfold m_uuid, mbind, ret in H. injection H as <- <-.
      destruct (ext_of E content) as [e|] eqn:Ee; destruct sd as [sd|], st as [st|], su as [su|]; try discriminate Ec;
        cbn [merge merge2 merge_part t_subdir t_stem t_suffix]; eexists _, _, _; (split; [reflexivity|]); cbn [t_subdir t_stem t_suffix];
        (split; [auto|]); split; eauto. }
  destruct Hc as (sd & st & su & -> & H1 & H2 & H3). destruct (Ho sd st su H1 H2 H3) as (P1 & P2 & P3).
  eexists. exists sd, (st ++ su). split; [reflexivity|]. split; [reflexivity|]. split; [assumption|]. split; [assumption|]. split; [assumption|reflexivity].
Qed.
Lemma built_usual o : built E o -> (exists c d, o = OLeaf c d) \/ is_storable E o = true -> exists x, usual_suffix E o x.
Proof.
  intros Hb Ho. destruct o as [a|l|d|c d|c fs u|q s u|p s u|? ? ? ? ?|? ? ? ?|?|?]; try (destruct Ho as [(? & ? & Hx)|Hx]; discriminate).
  - inversion Hb as [| | |c0 d0 j ext ty Hk Hs| | | |]; subst. destruct ext as [x|]; [exists x; econstructor; exact Hk|].
    destruct j; [exists ($".json"); apply us_dataclass; exact Hk|exists (s_suffix E); apply us_other; exact Hk].
  - eexists. constructor.
  - eexists. constructor.
  - eexists. constructor.
Qed.
Lemma leaf_storable c d : built E (OLeaf c d) -> exists ty, sto_name E (OLeaf c d) = Some ty /\ sto_ty E ty = Some (STLeaf c) /\ is_storable E (OLeaf c d) = true.
Proof.
  intros Hb. inversion Hb as [| | |c0 d0 j ext ty Hk Hs| | | |]; subst. exists ty. cbn [sto_name]. split; [assumption|].
  destruct Hreg as [_ Hr]. specialize (Hr c ty Hs). rewrite Hk in Hr. split; [assumption|]. unfold is_storable. cbn [sto_name]. rewrite Hs, Hr. reflexivity.
Qed.
Lemma container_storable o : built E o -> direct o -> is_storable E o = true ->
  exists ty d, sto_name E o = Some ty /\ sto_ty E ty = Some (STObj d) /\ dty_of o = Some d.
Proof.
  intros Hb Hd Hs. unfold is_storable in Hs. destruct (sto_name E o) as [ty|] eqn:En; [|discriminate]. exists ty.
  destruct o as [a|l|d|c d|c fs u|q s u|p s u|? ? ? ? ?|? ? ? ?|?|?]; try (exfalso; apply Hd; reflexivity).
  - exists (DModel c). split; [reflexivity|]. split; [|reflexivity]. cbn [sto_name] in En. destruct Hreg as [_ Hr]. specialize (Hr c ty En).
    inversion Hb as [| | | |c0 fs0 fds Hk Hn Hf| | |]; subst. rewrite Hk in Hr. exact Hr.
  - cbn [sto_name] in En. destruct (q_sto q) eqn:Eq; [|discriminate]. injection En as <-. cbn [dty_of]. rewrite Eq.
    exists (DSeq (match q_runs q with Some _ => true | None => false end) true). split; [reflexivity|].
    destruct (q_runs q) as [[[]]|]; split; reflexivity.
  - cbn [sto_name] in En. destruct (p_sto p) eqn:Eq; [|discriminate]. injection En as <-. cbn [dty_of]. rewrite Eq. exists (DMap true). repeat split; reflexivity.
Qed.
Lemma auto_ordinary o : ordinary E o (auto_target []).
Proof.
  intros sd st su H1 H2 H3. cbn in H1, H2, H3. destruct H1 as [H1|[H1 _]]; [|discriminate]. injection H1 as <-.
  destruct H2 as [H2|[_ [k ->]]]; [discriminate|]. destruct H3 as [H3|[_ H3]]; [discriminate|]. split; [eapply Huid; eassumption|].
  split; [intros [r H]; discriminate|]. intros H. cbn in H. destruct H as [H|[]]. discriminate.
Qed.

(** One level of nesting. *)
Section Step.
Variable n : nat.
Let F := depth E n.
Hypothesis IH : forall o co comps cx w o' p w', built E o -> (co = true -> direct o) -> sctx i comps cx -> ok w ->
  f_ser F (Some cx) co o w = (Ok (o', p), w') -> Saved n comps (if co then dty_of o else None) w w' o p.

Lemma Sees_rec o t pre we re tr : is_storable E o = true -> Sees n o tr -> Sees (S n) (ORec o t pre we re) tr.
Proof. intros Hs H K m w Hm. rewrite view_rec by assumption. apply H. lia. Qed.

Lemma write_container local l o w : direct o -> is_storable E o = true ->
  write_storable E F local l o w =
  (_ <- m_write E l (Text []);; x <- f_ser F (Some local) true o;; let (o', p) := x : obj * pser in
   _ <- m_write E l (Json (to_json (s_float E) p));; ret o') w.
Proof. intros Hd Hs. unfold write_storable. destruct o; try (exfalso; apply Hd; reflexivity); rewrite Hs; reflexivity. Qed.
Lemma rec_saved comps cx content t pre w o' q w' : built E (ORec content t pre None None) -> sctx i comps cx -> ok w ->
  ser_rec E F (Some cx) content t pre None None w = (Ok (o', q), w') ->
  is_storable E content = true /\ Saved (S n) comps None w w' (ORec content t pre None None) (typed n_record q).
Proof.
  intros Hb Hs Hok H. inversion Hb as [| | | | | | |content0 t0 pre0 Hc Ho]; subst.
  assert (Hld : loaded content) by (intros ty tt b c ->; inversion Hc).
  apply ser_rec_loaded in H as (dir & w0 & t' & w1 & out & we' & c' & _ & -> & H1 & H2 & -> & ->); [|assumption].
  assert (Hwr : (exists c d, content = OLeaf c d) \/ (direct content /\ is_storable E content = true)).
  { pose proof H2 as H3. apply ctx_write_gen in H3 as (p & local & nt & nm & w2 & _ & _ & _ & _ & [(_ & l & w3 & _ & Hw)|(_ & _ & Hv & _)]); [|congruence].
    unfold write_storable in Hw. destruct content; try discriminate Hw; try (left; eauto; fail);
      (right; split; [discriminate|]; destruct (is_storable E _); [reflexivity|discriminate]). }
  assert (Hwu : (exists c d, content = OLeaf c d) \/ is_storable E content = true) by tauto.
  destruct (rec_target_places content t w t' w1 Ho (built_usual content Hc Hwu) H1) as [cs Hp].
  apply rec_target_still in H1 as (ku & -> & _). set (w1 := mkWorld (w_fs w) (w_mounts w) (w_inputs w) ku (w_log w)) in *.
  assert (Hok1 : ok w1) by exact Hok.
  destruct (ctx_write_inv E i D0 Hcwd Hdir Hun F cx comps t' cs content w1 out we' c' w' Hok1 Hs Hp H2)
    as (pp & u & n' & w2 & local & Hn' & Hg & Hok2 & Hpo & (z & Z1 & Z2 & Z3) & Hsl & [(-> & Hw)|(_ & _ & Hv & _)]); [|congruence].
  destruct (gave_claims pp w1 u _ _ w2 Hg Hok1) as (C1 & C2 & C3 & C4).
  assert (HDl : D ++ comps ++ removelast cs ++ [n'] = D ++ (comps ++ removelast cs ++ [n'])) by reflexivity.
  fold D in Hw. set (l := D ++ comps ++ removelast cs ++ [n']) in *.
  assert (Hlog2 : w_log w2 = EvPrepare i pp :: w_log w) by (destruct Hg as (m & touched & fs' & _ & _ & _ & _ & _ & -> & _); reflexivity).
  assert (Cw : forall q, claimed w1 q <-> claimed w q) by (intros q; apply claimed_mounts; reflexivity).
  assert (Hout : fspath out = Ok z) by exact Z1. rewrite Hout.
  (* the two ways of writing *)
  assert (Hmain : exists ty tr, sto_name E content = Some ty /\ is_storable E content = true /\ grows w w' /\ ok w' /\ Sees n content tr /\
                    Reads E2 D0 n (fresh w w') comps out ty tr).
  { destruct Hwr as [(c & d & ->)|[Hdc Hst]].
    - destruct (leaf_storable c d Hc) as (ty & T1 & T2 & T3). exists ty, (TLeaf c d). split; [assumption|]. split; [assumption|].
      unfold write_storable in Hw. destruct (s_write E c (List.length (w_log w2)) d) as [left e] eqn:Ew.
      apply mbind_ok in Hw as (uu & w3 & Hw & He). destruct e as [e|]; [discriminate|]. unfold ret in He. injection He as <- <-.
      destruct (Hfai c _ d left Ew) as (x & -> & Hrd). pose proof (m_write_logged _ _ _ _ _ Hw) as Hlog. apply m_write_ok in Hw as (W1 & W2 & W3).
      assert (Cl : forall q, claimed w3 q <-> claimed w q \/ q = l).
      { intros q. rewrite (claimed_mounts w2 w3 q W1), C1, Cw. reflexivity. }
      split; [|split; [|split]].
      + split.
        * intros q Hq. split; [apply Cl; auto|]. rewrite W2. destruct (loc_eq_dec q l) as [->|]; [exfalso; apply C2, Cw; assumption|]. apply C3.
        * exists [EvWrite l; EvPrepare i pp]. split; [rewrite Hlog, Hlog2; reflexivity|]. intros q Hq. apply Cl in Hq as [Hq| ->]; [auto|right; left; reflexivity].
      + destruct Hok2 as [Ha Hb2]. split; [|auto]. rewrite W1. exact Ha.
      + intros K m ww Hm. destruct m; [lia|reflexivity].
      + eapply (Reads_leaf E2 D0 Hcwd2 Hdir Hlim n _ comps out (removelast cs ++ [n']) ty c x d).
        * rewrite HD2. exact C4.
        * assumption.
        * rewrite HD2. fold l. repeat split; [apply Cl; auto|intros Hx; apply C2, Cw; assumption|]. rewrite W2. destruct (loc_eq_dec l l); congruence.
        * rewrite (sto_ty_same E E2 Hsame). assumption.
        * intros k. destruct Hsame as (_ & _ & _ & -> & _). apply Hrd.
    - destruct (container_storable content Hc Hdc Hst) as (ty & dt & T1 & T2 & T3).
      rewrite write_container in Hw by assumption. apply mbind_ok in Hw as (u1 & w3 & Hw1 & Hw). apply mbind_ok in Hw as ([o1 p1] & w4 & Hw2 & Hw).
      apply mbind_ok in Hw as (u2 & w5 & Hw3 & Hw). unfold ret in Hw. injection Hw as <- <-.
      pose proof (m_write_logged _ _ _ _ _ Hw1) as Hlog3. pose proof (m_write_logged _ _ _ _ _ Hw3) as Hlog5.
      apply m_write_ok in Hw1 as (W1 & W2 & W3). apply m_write_ok in Hw3 as (X1 & X2 & X3). cbn [snd] in X2.
      assert (Hok3 : ok w3). { destruct Hok2 as [Ha Hb2]. split; [|auto]. rewrite W1. exact Ha. }
      destruct (IH content true _ local w3 _ _ w4 Hc (fun _ => Hdc) Hsl Hok3 Hw2) as ([S1 (evs & L1 & L2)] & S2 & S3 & S4 & tr & S5 & S6).
      cbn iota in S6. rewrite T3 in S6.
      exists ty, tr. split; [assumption|]. split; [assumption|].
      assert (Cl : forall q, claimed w3 q <-> claimed w q \/ q = l).
      { intros q. rewrite (claimed_mounts w2 w3 q W1), C1, Cw. reflexivity. }
      assert (Cl5 : forall q, claimed w5 q <-> claimed w4 q) by (intros q; apply claimed_mounts; exact X1).
      split; [|split; [|split]].
      + split.
        * intros q Hq. assert (Hne : q <> l) by (intros ->; apply C2, Cw; assumption). destruct (S1 q) as [A1 A2]; [apply Cl; auto|]. split; [apply Cl5; assumption|].
          rewrite X2. destruct (loc_eq_dec q l) as [|]; [contradiction|]. rewrite A2, W2. destruct (loc_eq_dec q l) as [|]; [contradiction|]. apply C3.
        * exists (EvWrite l :: evs ++ [EvWrite l; EvPrepare i pp]). split; [rewrite Hlog5, L1, Hlog3, Hlog2; cbn [app]; rewrite <- app_assoc; reflexivity|].
          intros q Hq. apply Cl5 in Hq. destruct (L2 q Hq) as [Hq'|Hq']; [apply Cl in Hq' as [Hq'| ->]; [auto|right; left; reflexivity]|].
          right. right. apply in_or_app. auto.
      + destruct S2 as [Ha Hb2]. split; [|auto]. rewrite X1. exact Ha.
      + assumption.
      + eapply (Reads_obj E2 D0 Hcwd2 Hdir Hlim n _ comps out (removelast cs ++ [n']) ty dt (s_float E) p1).
        * rewrite HD2. exact C4.
        * assumption.
        * rewrite HD2. fold l. repeat split; [apply Cl5, S1, Cl; auto|intros Hx; apply C2, Cw; assumption|]. rewrite X2. destruct (loc_eq_dec l l); congruence.
        * assumption.
        * rewrite (sto_ty_same E E2 Hsame). assumption.
        * rewrite removelast_last. eapply Loads_mono; [apply le_n| |exact S6]. intros q x (B1 & B2 & B3).
          assert (Hne : q <> l) by (intros ->; apply B2, Cl; auto). repeat split.
          -- apply Cl5. assumption.
          -- intros Hx. apply B2, Cl. auto.
          -- rewrite X2. destruct (loc_eq_dec q l); [contradiction|assumption]. }
  destruct Hmain as (ty & tr & T1 & T2 & T3 & T4 & T5 & T6). split; [assumption|].
  assert (Hty : rec_sto_type E content = Some ty) by (destruct content; try discriminate T2; exact T1).
  assert (Hq : [(key "target", PAtom (AStr z)); (key "sto_type", opt_str (rec_sto_type E content))] ++ (if pre then [(key "preload", PAtom (ABool true))] else []) ++
              match exc_entry "write" None ++ exc_entry "read" None with [] => [] | l => [(key "exceptions", PDict l)] end = rec_dict z ty pre).
  { rewrite Hty. unfold rec_dict. cbn [exc_entry app opt_str]. rewrite app_nil_r. reflexivity. }
  rewrite Hq. split; [assumption|]. split; [assumption|]. split; [apply typed_ready, rec_ready|]. split; [discriminate|].
  exists tr. split; [apply Sees_rec; assumption|]. subst out. eapply Loads_rec; eassumption.
Qed.

Lemma run_method cx co o w nm m o' p w' : (forall a, o <> OAtom a) -> (forall l, o <> OList l) -> (forall d, o <> ODict d) ->
  ser_method E F (Some cx) o = Some (nm, m) -> ser_body E F (Some cx) co o w = (Ok (o', p), w') ->
  exists q, m w = (Ok (o', q), w') /\ p = emit co (nm, q).
Proof.
  intros Ha Hl Hd Hm H. assert (H' : (r <- attempt m;; match r with
          | Ok (o', p) => ret (o', emit co (nm, p))
          | Exn e =>
              if is_ser_error e then raise e
              else _ <- invalid_found E;;
                   ret (o, emit co (mark_name MExcUnser, mark_content (mkMark MExcUnser (type_name E o))))
          end) w = (Ok (o', p), w')).
  { unfold ser_body in H. rewrite Hm in H. destruct o; try exact H; exfalso; [eapply Ha|eapply Hl|eapply Hd]; reflexivity. }
  clear H. apply mbind_ok in H' as (r & w1 & H1 & H). apply attempt_ok in H1. destruct r as [[o1 p1]|e].
  - unfold ret in H. injection H as <- <- <-. eauto.
  - destruct (is_ser_error e); [discriminate|]. apply mbind_ok in H as (u & w2 & H2 & _). apply invalid_ok in H2 as [_ Hv]. congruence.
Qed.

Lemma rm_none (b : bool) cx (d : list obj) w : (if b then rm_all F (Some cx) [] else ret d) w = (Ok (if b then [] else d), w).
Proof. destruct b; reflexivity. Qed.
Lemma rm_none' cx w : rm_all F (Some cx) [] w = (Ok [], w). Proof. reflexivity. Qed.
Definition item_ps (y : obj * option pser) : pser := match snd y with Some p => p | None => PAtom ANone end.
Lemma item_saved comps cx o w y w' : built E o -> sctx i comps cx -> ok w -> ser_item E F (Some cx) o w = (Ok y, w') ->
  Saved n comps None w w' o (item_ps y) /\ snd y <> None.
Proof.
  intros Hb Hs Hok H.
  assert (H' : (x <- f_ser F (Some cx) false o;; ret (fst x, Some (snd x))) w = (Ok y, w')).
  { unfold ser_item in H. destruct o; try exact H. inversion Hb; subst. cbn [rec_exists] in H. rewrite orb_true_r in H. exact H. }
  apply mbind_ok in H' as ([o1 p1] & w1 & H1 & H2). unfold ret in H2. injection H2 as <- <-. cbn [snd fst]. split; [|discriminate].
  apply (IH o false comps cx w o1 p1 w1 Hb); [discriminate|assumption|assumption|exact H1].
Qed.
Lemma kept_items ys : Forall (fun y : obj * option pser => snd y <> None) ys -> dangling ys = [] /\ kept ys = map item_ps ys.
Proof.
  induction 1 as [|[o [p|]] ys H _ [H1 H2]]; [split; reflexivity| |exfalso; apply H; reflexivity]. unfold dangling, kept in *. cbn. rewrite H1, H2. split; reflexivity.
Qed.
Lemma Sees_seq q s u ts : Forall2 (Sees n) s ts -> Sees (S n) (OSeq q s u) (seq_tree q ts).
Proof.
  intros H K m w Hm. destruct m; [lia|]. cbn [view content_of]. rewrite mbind_run. unfold ret at 1. cbn [fst]. rewrite mbind_run, (mapM_sees n s ts H) by lia. reflexivity.
Qed.
Lemma seq_saved comps cx q s w o' p w' : built E (OSeq q s []) -> sctx i comps cx -> ok w ->
  ser_seq E F (Some cx) q s [] w = (Ok (o', p), w') -> Saved (S n) comps (dty_of (OSeq q s [])) w w' (OSeq q s []) p /\ exists e, p = PDict e.
Proof.
  intros Hb Hs Hok H. inversion Hb as [| | | | |q0 s0 Hi| |]; subst. unfold ser_seq in H.
  apply mbind_ok in H as (r1 & w1 & H1 & H). rewrite rm_none in H1. injection H1 as _ <-.
  apply mbind_ok in H as (ys & w2 & H2 & H).
  destruct (mapM_saved (ser_item E F (Some cx)) (fun o => o) item_ps (fun y => snd y <> None) n comps s) with (w := w) (ys := ys) (w' := w2)
    as (G1 & G2 & G3 & G4 & ts & G5 & G6); [intros x w0 y w1 Hx Hok0 Hy; eapply item_saved; eauto|assumption|assumption|].
  destruct (kept_items ys G4) as [K1 K2]. rewrite K1, K2 in H.
  apply mbind_ok in H as (r2 & w3 & H3 & H). rewrite rm_none in H3. injection H3 as _ <-. unfold ret in H. injection H as _ <- <-.
  split; [|eexists; reflexivity]. rewrite map_id in G5.
  change (Saved (S n) comps (dty_of (OSeq q s [])) w w2 (OSeq q s []) (PDict (seq_dict q (map item_ps ys)))).
  split; [assumption|]. split; [assumption|]. split; [apply seq_ready; assumption|]. split; [discriminate|].
  exists (seq_tree q ts). split; [apply Sees_seq; assumption|]. apply Loads_seq; assumption.
Qed.

Lemma mapM_keyed_ok {K A B} (f : A -> M B) (l : list (K * A)) w xs w' :
  mapM (fun kv => v <- f (snd kv);; ret (fst kv, v)) l w = (Ok xs, w') ->
  exists vs, mapM f (map snd l) w = (Ok vs, w') /\ xs = combine (map fst l) vs /\ List.length (map fst l) = List.length vs.
Proof.
  rewrite mapM_keyed. destruct (mapM f (map snd l) w) as [[vs|e] w1] eqn:Em; [|discriminate]. intros H. injection H as <- <-. exists vs.
  split; [reflexivity|]. split; [reflexivity|].
  assert (Hl : forall (l : list A) w vs w', mapM f l w = (Ok vs, w') -> List.length l = List.length vs).
  { clear. induction l as [|x l IHl]; intros w vs w' H; [injection H as <- _; reflexivity|]. cbn [mapM] in H.
    apply mbind_ok in H as (y & w1 & _ & H). apply mbind_ok in H as (ys & w2 & H & H2). unfold ret in H2. injection H2 as <- _. cbn. f_equal. eapply IHl. exact H. }
  apply Hl in Em. rewrite !map_length in *. assumption.
Qed.
Lemma Sees_map p s u ks ts : map fst s = ks -> Forall2 (Sees n) (map snd s) ts -> Sees (S n) (OMap p s u) (map_tree p (combine ks ts)).
Proof.
  intros <- H K m w Hm. destruct m; [lia|]. cbn [view content_of]. rewrite mbind_run. unfold ret at 1. cbn [fst].
  rewrite mbind_run, mapM_keyed, (mapM_sees n _ ts H) by lia. reflexivity.
Qed.
Lemma map_saved comps cx q s w o' p w' : built E (OMap q s []) -> sctx i comps cx -> ok w ->
  ser_map E F (Some cx) q s [] w = (Ok (o', p), w') -> Saved (S n) comps (dty_of (OMap q s [])) w w' (OMap q s []) p /\ exists e, p = PDict e.
Proof.
  intros Hb Hs Hok H. inversion Hb as [| | | | | |q0 s0 Hi Hnd|]; subst. unfold ser_map in H.
  apply mbind_ok in H as (r1 & w1 & H1 & H). rewrite rm_none' in H1. injection H1 as _ <-.
  apply mbind_ok in H as (xs & w2 & H2 & H). apply mapM_keyed_ok in H2 as (ys & H2 & -> & Hlen).
  destruct (mapM_saved (ser_item E F (Some cx)) (fun o => o) item_ps (fun y => snd y <> None) n comps (map snd s)) with (w := w) (ys := ys) (w' := w2)
    as (G1 & G2 & G3 & G4 & ts & G5 & G6); [|assumption|assumption|].
  { intros x w0 y w1 Hx Hok0 Hy. apply in_map_iff in Hx as ([k v] & <- & Hx). eapply item_saved; eauto. }
  destruct (kept_items ys G4) as [K1 K2]. rewrite combine_snd, K1 in H by assumption.
  apply mbind_ok in H as (r2 & w3 & H3 & H). rewrite rm_none in H3. injection H3 as _ <-. unfold ret in H. injection H as _ <- <-.
  split; [|eexists; reflexivity]. rewrite map_id in G5.
  assert (Hfl : flat_map (fun kx : str * (obj * option pser) => match snd (snd kx) with Some s => [(AStr (fst kx), s)] | None => [] end) (combine (map fst s) ys)
     = map (fun kv => (AStr (fst kv), snd kv)) (combine (map fst s) (map item_ps ys))).
  { clear - G4 Hlen. revert ys G4 Hlen. induction (map fst s) as [|k ks IHk]; intros [|[o [p|]] ys] G4 Hlen; try reflexivity; try discriminate.
    - inversion G4; subst. cbn. f_equal. apply IHk; [assumption|]. cbn in Hlen. congruence.
    - inversion G4; subst. cbn in *. congruence. }
  rewrite Hfl. change (Saved (S n) comps (dty_of (OMap q s [])) w w2 (OMap q s []) (PDict (map_dict q (map (fun kv => (AStr (fst kv), snd kv)) (combine (map fst s) (map item_ps ys)))))).
  assert (Hl2 : List.length (map fst s) = List.length (map item_ps ys)) by (rewrite (map_length item_ps); assumption).
  split; [assumption|]. split; [assumption|]. split; [apply map_ready, str_dict_ready; assumption|]. split; [discriminate|].
  exists (map_tree q (combine (map fst s) ts)). split; [apply Sees_map; [reflexivity|assumption]|].
  apply (Loads_map E2 D0 Hdir n _ comps q (map fst s) (map item_ps ys) ts); assumption.
Qed.

(** Lists and dicts. *)
Lemma plain_saved comps cx o w y w' : built E o -> sctx i comps cx -> ok w -> ser_plain_item E F (Some cx) o w = (Ok y, w') ->
  Saved n comps None w w' o (snd y).
Proof.
  intros Hb Hs Hok H. unfold ser_plain_item in H. destruct (is_storable E o) eqn:Est.
  - apply mbind_ok in H as ([o1 p1] & w1 & H1 & H2). unfold ret in H2. injection H2 as <- <-. cbn [snd].
    assert (Hbr : built E (fresh_record o)) by (constructor; [assumption|apply auto_ordinary]).
    destruct (IH (fresh_record o) false comps cx w o1 p1 w1 Hbr) as (S1 & S2 & S3 & S4 & t & S5 & S6); [discriminate|assumption|assumption|exact H1|].
    split; [assumption|]. split; [assumption|]. split; [assumption|]. split; [intros _; apply S4; discriminate|]. exists t. split; [|assumption].
    intros K m ww Hm. specialize (S5 K m ww Hm). unfold fresh_record in S5. rewrite view_rec in S5 by assumption. assumption.
  - destruct y as [o1 p1]. apply (IH o false comps cx w o1 p1 w' Hb); [discriminate|assumption|assumption|exact H].
Qed.
Lemma list_saved comps cx l w o' p w' : built E (OList l) -> sctx i comps cx -> ok w ->
  ser_list E F (Some cx) l w = (Ok (o', p), w') -> Saved (S n) comps None w w' (OList l) p.
Proof.
  intros Hb Hs Hok H. inversion Hb as [|l0 Hi| | | | | |]; subst. unfold ser_list in H. apply mbind_ok in H as (ys & w1 & H1 & H).
  destruct (mapM_saved (ser_plain_item E F (Some cx)) (fun o => o) snd (fun _ => True) n comps l) with (w := w) (ys := ys) (w' := w1)
    as (G1 & G2 & G3 & _ & ts & G5 & G6); [intros x w0 y w2 Hx Hok0 Hy; split; [eapply plain_saved; eauto|exact I]|assumption|assumption|].
  cbn zeta in H. unfold ret in H. injection H as _ <- <-. rewrite map_id in G5.
  assert (Hsee : Sees (S n) (OList l) (TList ts)).
  { intros K m ww Hm. destruct m; [lia|]. cbn [view content_of]. rewrite mbind_run. unfold ret at 1. cbn [fst]. rewrite mbind_run, (mapM_sees n l ts G5) by lia. reflexivity. }
  split; [assumption|]. split; [assumption|]. destruct (existsb (is_storable E) l).
  - split; [|split; [intros _; discriminate|]].
    + apply typed_ready. apply (seq_ready (mkSeq false [] false None)). assumption.
    + exists (TList ts). split; [assumption|]. eapply (Loads_typed E2 D0 n _ comps (DSeq false false)); [reflexivity|].
      apply (Loads_seq E2 D0 Hdir n _ comps (mkSeq false [] false None) (map snd ys) ts). assumption.
  - split; [constructor; assumption|]. split; [discriminate|]. exists (TList ts). split; [assumption|]. apply Loads_list; assumption.
Qed.
Lemma dict_saved comps cx d w o' p w' : built E (ODict d) -> sctx i comps cx -> ok w ->
  ser_dict E F (Some cx) d w = (Ok (o', p), w') -> Saved (S n) comps None w w' (ODict d) p.
Proof.
  intros Hb Hs Hok H. inversion Hb as [| |d0 Hi Hnd| | | | |]; subst. unfold ser_dict in H. apply mbind_ok in H as (xs & w1 & H1 & H).
  apply mapM_keyed_ok in H1 as (ys & H1 & -> & Hlen).
  destruct (mapM_saved (ser_plain_item E F (Some cx)) (fun o => o) snd (fun _ => True) n comps (map snd d)) with (w := w) (ys := ys) (w' := w1)
    as (G1 & G2 & G3 & _ & ts & G5 & G6); [|assumption|assumption|].
  { intros x w0 y w2 Hx Hok0 Hy. apply in_map_iff in Hx as ([k v] & <- & Hx). split; [eapply plain_saved; eauto; apply (Hi k v Hx)|exact I]. }
  cbn zeta in H. unfold ret in H. injection H as _ <- <-. rewrite map_id in G5.
  assert (Hmap : map (fun kx : atom * (obj * pser) => (fst kx, snd (snd kx))) (combine (map fst d) ys) = combine (map fst d) (map snd ys)).
  { clear - Hlen. revert ys Hlen. induction (map fst d) as [|k ks IHk]; intros [|y ys] Hlen; try reflexivity. cbn. f_equal. apply IHk. cbn in Hlen. congruence. }
  rewrite Hmap.
  assert (Hks : exists ks, map fst d = map AStr ks /\ NoDup ks /\ ~ In SER_TYPE ks).
  { clear - Hi Hnd. induction d as [|[k v] d IHd]; [exists []; split; [reflexivity|split; [constructor|intros []]]|].
    cbn [map fst] in *. inversion Hnd as [|? ? N1 N2]; subst.
    destruct IHd as (ks & K1 & K2 & K3); [intros k' x' Hx'; apply Hi; right; assumption|assumption|].
    destruct (Hi k v (or_introl eq_refl)) as [(s & -> & Hs) _]. exists (s :: ks). cbn [map]. split; [congruence|].
    split; [|intros [Hx|Hx]; [congruence|auto]]. constructor; [|assumption]. intros Hx. apply N1. rewrite K1. apply in_map. assumption. }
  destruct Hks as (ks & K1 & K2 & K3).
  assert (Hl2 : List.length (map fst d) = List.length (map snd ys)) by (rewrite (map_length snd ys); assumption).
  assert (Hl3 : List.length ks = List.length (map snd ys)) by (rewrite K1, map_length in Hl2; assumption).
  assert (Hcomb : forall A (l : list A), combine (map AStr ks) l = map (fun kv => (AStr (fst kv), snd kv)) (combine ks l)).
  { clear. induction ks as [|k ks IHk]; intros A [|x l]; try reflexivity. cbn. f_equal. apply IHk. }
  assert (Hsee : Sees (S n) (ODict d) (TDict (combine (map fst d) ts))).
  { intros K m ww Hm. destruct m; [lia|]. cbn [view content_of]. rewrite mbind_run. unfold ret at 1. cbn [fst].
    rewrite mbind_run, mapM_keyed, (mapM_sees n _ ts G5) by lia. reflexivity. }
  split; [assumption|]. split; [assumption|]. rewrite K1 in *. destruct (existsb (is_storable E) (map snd d)).
  - rewrite Hcomb. split; [|split; [intros _; discriminate|]].
    + apply typed_ready. apply (map_ready (mkMap false [] false false false)). apply str_dict_ready; assumption.
    + exists (TDict (combine (map AStr ks) ts)). split; [assumption|]. eapply (Loads_typed E2 D0 n _ comps (DMap false)); [reflexivity|].
      pose proof (Loads_map E2 D0 Hdir n (fresh w w1) comps (mkMap false [] false false false) ks (map snd ys) ts Hl3 K2 G6) as Hx.
      cbn [map_tree] in Hx. rewrite <- (Hcomb tree) in Hx. exact Hx.
  - split; [|split; [intros _; discriminate|]].
    + rewrite Hcomb. apply str_dict_ready; assumption.
    + exists (TDict (combine (map AStr ks) ts)). split; [assumption|]. apply Loads_dict; [assumption|assumption| |assumption].
      intros Hx. apply in_map_iff in Hx as (s & Hx & Hy). injection Hx as ->. contradiction.
Qed.

(** Modelclass instances. *)
Lemma told_mono (g g' : loc -> content -> Prop) comps d f t : (forall l c, g l c -> g' l c) -> told E2 D0 n g comps d f t -> told E2 D0 n g' comps d f t.
Proof.
  intros H [Ht|(p & P1 & P2 & P3)]; [left; exact Ht|]. right. exists p. split; [assumption|]. split; [assumption|]. eapply Loads_mono; [apply le_n|exact H|exact P3].
Qed.
Lemma told_other g comps k p d f t : AStr (mf_name f) <> k -> told E2 D0 n g comps d f t -> told E2 D0 n g comps ((k, p) :: d) f t.
Proof.
  intros Hk Ht. assert (He : assoc_a (AStr (mf_name f)) ((k, p) :: d) = assoc_a (AStr (mf_name f)) d).
  { cbn. destruct (atom_eq_dec k (AStr (mf_name f))); [congruence|reflexivity]. }
  unfold told. rewrite He. exact Ht.
Qed.
Lemma assoc_a_none {A} k (d : list (atom * A)) : (forall p, ~ In (k, p) d) -> assoc_a k d = None.
Proof. intros H. destruct (assoc_a k d) eqn:Ea; [|reflexivity]. apply assoc_a_in in Ea. exfalso. eapply H. exact Ea. Qed.
Lemma fields_saved comps cx fds : sctx i comps cx -> NoDup (map mf_name fds) -> forall fs w fs' d w',
  (forall f v, In f fds -> mf_noser f = false -> assoc (mf_name f) fs = Some v ->
     built E v /\ (v = OAtom ANone -> mf_default f = None \/ mf_default f = Some (OAtom ANone))) ->
  ok w -> ser_fields_m F (Some cx) fds fs w = (Ok (fs', d), w') ->
  grows w w' /\ ok w' /\
  (forall k p, In (k, p) d -> (exists f, In f fds /\ mf_noser f = false /\ k = AStr (mf_name f)) /\ json_ready p) /\ NoDup (map fst d) /\
  exists vs ts, Forall2 (fun f v => assoc (mf_name f) fs = Some v) (filter (fun f => negb (mf_noser f)) fds) vs /\
    Forall2 (Sees n) vs ts /\ Forall2 (told E2 D0 n (fresh w w') comps d) (filter (fun f => negb (mf_noser f)) fds) ts.
Proof.
  intros Hs. induction fds as [|f fds IHf]; intros Hnd fs w fs' d w' Hb Hok H.
  - injection H as _ <- <-. split; [apply grows_refl|]. split; [assumption|]. split; [intros k p []|]. split; [constructor|]. exists [], []. repeat split; constructor.
  - cbn [map] in Hnd. inversion Hnd as [|? ? N1 N2]; subst. cbn [ser_fields_m] in H. cbn [filter]. destruct (mf_noser f) eqn:En; cbn [negb].
    + destruct (IHf N2 fs w fs' d w') as (G1 & G2 & G3 & G4 & G5); [intros f0 v Hf0; apply Hb; right; assumption|assumption|assumption|].
      split; [assumption|]. split; [assumption|]. split; [|split; [assumption|exact G5]].
      intros k p Hp. destruct (G3 k p Hp) as [(f0 & X1 & X2 & X3) X4]. split; [exists f0; split; [right; assumption|auto]|assumption].
    + destruct (assoc (mf_name f) fs) as [v|] eqn:Ea; [|discriminate].
      destruct (Hb f v (or_introl eq_refl) En Ea) as [Hv Hdef].
      assert (Hcase : v = OAtom ANone \/ (v <> OAtom ANone /\
         (x <- f_ser F (Some cx) false v;; y <- ser_fields_m F (Some cx) fds (assoc_set (mf_name f) (fst x) fs);; ret (fst y, (AStr (mf_name f), snd x) :: snd y)) w = (Ok (fs', d), w'))).
      { destruct v as [[| | | |]|l|dd|c x|c x u|q x u|q x u|? ? ? ? ?|? ? ? ?|?|?]; try (right; split; [discriminate|exact H]). left. reflexivity. }
      destruct Hcase as [-> | [Hnn H']].
      * destruct (IHf N2 fs w fs' d w') as (G1 & G2 & G3 & G4 & vs & ts & G5 & G6 & G7); [intros f0 v Hf0; apply Hb; right; assumption|assumption|assumption|].
        split; [assumption|]. split; [assumption|]. split; [|split; [assumption|]].
        { intros k p Hp. destruct (G3 k p Hp) as [(f0 & X1 & X2 & X3) X4]. split; [exists f0; split; [right; assumption|auto]|assumption]. }
        exists (OAtom ANone :: vs), (TAtom ANone :: ts). split; [constructor; assumption|]. split; [constructor; [|assumption]|constructor; [|assumption]].
        { intros K m ww Hm. destruct m; [lia|reflexivity]. }
        left. split; [|auto]. apply assoc_a_none. intros p Hp. destruct (G3 _ p Hp) as [(f0 & X1 & _ & X3) _]. injection X3 as X3. apply N1. rewrite X3. apply in_map. assumption.
      * apply mbind_ok in H' as ([o1 p1] & w1 & H1 & H'). apply mbind_ok in H' as ([fs1 d1] & w2 & H2 & H'). unfold ret in H'. cbn [fst snd] in *. injection H' as <- <- <-.
        destruct (IH v false comps cx w o1 p1 w1 Hv) as (S1 & S2 & S3 & S4 & t & S5 & S6); [discriminate|assumption|assumption|exact H1|].
        assert (Hoth : forall f0, In f0 fds -> assoc (mf_name f0) (assoc_set (mf_name f) o1 fs) = assoc (mf_name f0) fs).
        { intros f0 Hf0. apply assoc_set_other. intros Hx. apply N1. rewrite Hx. apply in_map. assumption. }
        destruct (IHf N2 (assoc_set (mf_name f) o1 fs) w1 fs1 d1 w2) as (G1 & G2 & G3 & G4 & vs & ts & G5 & G6 & G7).
        { intros f0 v0 Hf0 Hno Hx. rewrite Hoth in Hx by assumption. apply Hb; [right; assumption|assumption|assumption]. }
        { assumption. } { assumption. }
        assert (Hnew : forall p, ~ In (AStr (mf_name f), p) d1).
        { intros p Hp. destruct (G3 _ p Hp) as [(f0 & X1 & _ & X3) _]. injection X3 as X3. apply N1. rewrite X3. apply in_map. assumption. }
        split; [eapply grows_trans; eassumption|]. split; [assumption|]. split; [|split].
        { intros k p [Hp|Hp].
          - injection Hp as <- <-. split; [exists f; split; [left; reflexivity|auto]|assumption].
          - destruct (G3 k p Hp) as [(f0 & X1 & X2 & X3) X4]. split; [exists f0; split; [right; assumption|auto]|assumption]. }
        { cbn [map fst]. constructor; [|assumption]. intros Hx. apply in_map_iff in Hx as ([k p] & Hk & Hp). cbn in Hk. subst k. eapply Hnew. exact Hp. }
        exists (v :: vs), (t :: ts). split; [constructor; [assumption|]|split; [constructor; assumption|constructor]].
        { assert (Hfl : forall f0, In f0 (filter (fun f => negb (mf_noser f)) fds) -> In f0 fds) by (intros f0 Hf0; apply filter_In in Hf0; tauto).
          clear - G5 Hoth Hfl. induction G5 as [|f0 v0 fl vs Hx Hy IHy]; constructor; [rewrite <- Hoth; [assumption|apply Hfl; left; reflexivity]|].
          apply IHy. intros f1 Hf1. apply Hfl. right. assumption. }
        { right. exists p1. split; [cbn; destruct (atom_eq_dec (AStr (mf_name f)) (AStr (mf_name f))); congruence|]. split; [apply S4; assumption|].
          eapply Loads_mono; [apply le_n| |exact S6]. intros l c Hl. eapply fresh_left; eassumption. }
        { assert (Hfl : forall f0, In f0 (filter (fun f => negb (mf_noser f)) fds) -> In f0 fds) by (intros f0 Hf0; apply filter_In in Hf0; tauto).
          assert (Hm : forall f0 t0, In f0 fds -> told E2 D0 n (fresh w1 w2) comps d1 f0 t0 -> told E2 D0 n (fresh w w2) comps ((AStr (mf_name f), p1) :: d1) f0 t0).
          { intros f0 t0 Hf0 Ht0. apply told_other; [intros Hx; injection Hx as Hx; apply N1; rewrite <- Hx; apply in_map; assumption|].
            eapply told_mono; [|exact Ht0]. intros l c Hl. eapply fresh_right; eassumption. }
          clear - G7 Hm Hfl. induction G7 as [|f0 t0 fl ts Hx Hy IHy]; constructor; [apply Hm; [apply Hfl; left; reflexivity|assumption]|].
          apply IHy. intros f1 Hf1. apply Hfl. right. assumption. }
Qed.
Lemma model_saved comps cx c fds fs w o' p w' : k_kind (s_class E c) = SModel fds -> built E (OModel c fs []) -> sctx i comps cx -> ok w ->
  ser_model E F (Some cx) c fds fs [] w = (Ok (o', p), w') -> Saved (S n) comps (Some (DModel c)) w w' (OModel c fs []) p /\ exists e, p = PDict e.
Proof.
  intros Hk Hb Hs Hok H. inversion Hb as [| | | |c0 fs0 fds0 Hk' Hnd Hf| | |]; subst. rewrite Hk in Hk'. injection Hk' as <-.
  unfold ser_model in H. apply mbind_ok in H as (u & w1 & H1 & H). rewrite rm_none in H1. injection H1 as _ <-.
  apply mbind_ok in H as ([fs' d] & w2 & H2 & H). unfold ret in H. cbn [fst snd] in H. injection H as _ <- <-.
  destruct (fields_saved comps cx fds Hs Hnd fs w fs' d w2 Hf Hok H2) as (G1 & G2 & G3 & G4 & vs & ts & G5 & G6 & G7).
  split; [|eexists; reflexivity]. split; [assumption|]. split; [assumption|]. split; [|split; [discriminate|]].
  - constructor; [|assumption|].
    + intros k x Hx. destruct (G3 k x Hx) as [(f & _ & _ & ->) _]. eauto.
    + intros k x Hx. apply (G3 k x Hx).
  - exists (TModel c (combine (map mf_name (filter (fun f => negb (mf_noser f)) fds)) ts)). split.
    + intros K m ww Hm. destruct m; [lia|]. cbn [view content_of]. rewrite mbind_run. unfold ret at 1. cbn [fst]. rewrite Hk, mbind_run.
      rewrite (mapM_fields (view E K m) fs _ vs G5), (mapM_sees n vs ts G6) by lia. reflexivity.
    + apply (Loads_model E2 D0 Hdir n _ comps c fds d ts).
      * destruct Hsame as (-> & _). assumption.
      * assumption.
      * intros f Hf0 Hno. apply assoc_a_none. intros p Hp. destruct (G3 _ p Hp) as [(f0 & X1 & X2 & X3) _]. injection X3 as X3.
        assert (f = f0). { clear - Hnd Hf0 X1 X3. induction fds as [|g r IHr]; [contradiction|]. cbn in Hnd. inversion Hnd as [|? ? N1 N2]; subst.
          destruct Hf0 as [<-|Hf0], X1 as [<-|X1]; auto; exfalso; apply N1; [rewrite X3|rewrite <- X3]; apply in_map; assumption. }
        congruence.
      * assumption.
Qed.

Lemma step_saved o co comps cx w o' p w' : built E o -> (co = true -> direct o) -> sctx i comps cx -> ok w ->
  ser_body E F (Some cx) co o w = (Ok (o', p), w') -> Saved (S n) comps (if co then dty_of o else None) w w' o p.
Proof.
  intros Hb Hd Hs Hok H.
  assert (Hfin : forall nm q d, ser_ty E2 nm = Some d -> dty_of o = Some d -> (exists e, q = PDict e) -> Saved (S n) comps (Some d) w w' o q ->
    Saved (S n) comps (if co then dty_of o else None) w w' o (emit co (nm, q))).
  { intros nm q d Hty Hdt [e ->] HS. destruct co; [rewrite Hdt; exact HS|]. destruct HS as (S1 & S2 & S3 & S4 & t & S5 & S6).
    cbn [emit fst snd]. split; [assumption|]. split; [assumption|]. split; [apply typed_ready; assumption|]. split; [intros _; discriminate|].
    exists t. split; [assumption|]. eapply Loads_typed; eassumption. }
  inversion Hb as [a|l Hi|d Hi Hn|c d j ext ty Hk Ht|c fs fds Hk Hn Hf|q s Hi|q s Hi Hn|content t pre Hc Ho]; subst o.
  - cbn in H. injection H as <- <- <-. destruct co; [exfalso; apply Hd; reflexivity|]. split; [apply grows_refl|]. split; [assumption|]. split; [constructor|].
    split; [congruence|]. exists (TAtom a). split; [intros K m ww Hm; destruct m; [lia|reflexivity]|]. apply Loads_atom.
  - destruct co; [exfalso; apply Hd; reflexivity|]. cbn [ser_body] in H. eapply list_saved; eassumption.
  - destruct co; [exfalso; apply Hd; reflexivity|]. cbn [ser_body] in H. eapply dict_saved; eassumption.
  - exfalso. cbn [ser_body ser_method] in H. apply mbind_ok in H as (u & w1 & H1 & _). apply invalid_ok in H1 as [_ Hv]. congruence.
  - destruct (k_ser (s_class E c)) as [nm|] eqn:En.
    2:{ exfalso. cbn [ser_body ser_method] in H. rewrite En in H. apply mbind_ok in H as (u & w1 & H1 & _). apply invalid_ok in H1 as [_ Hv]. congruence. }
    pose proof Hreg as [Hr _]. specialize (Hr c fds nm Hk En).
    assert (Hm : ser_method E F (Some cx) (OModel c fs []) = Some (nm, ser_model E F (Some cx) c fds fs [])) by (cbn [ser_method]; rewrite En, Hr, Hk; reflexivity).
    assert (Hq : exists q, ser_model E F (Some cx) c fds fs [] w = (Ok (o', q), w') /\ p = emit co (nm, q)).
    { eapply run_method; [| | |exact Hm|exact H]; discriminate. }
    clear H. destruct Hq as (q & H & ->).
    pose proof (model_saved comps cx c fds fs w o' q w' Hk Hb Hs Hok H) as Hms. destruct Hms as [HS He].
    apply (Hfin nm q (DModel c)); [rewrite (ser_ty_same E E2 Hsame); assumption|reflexivity|assumption|assumption].
  - eapply run_method in H as (p1 & H & ->); [|discriminate|discriminate|discriminate|cbn [ser_method]; reflexivity].
    destruct (seq_saved comps cx q s w o' p1 w' Hb Hs Hok H) as [HS He]. cbn [dty_of] in HS.
    eapply Hfin; [|reflexivity|assumption|exact HS]. destruct (q_runs q) as [[[]]|], (q_sto q); reflexivity.
  - eapply run_method in H as (p1 & H & ->); [|discriminate|discriminate|discriminate|cbn [ser_method]; reflexivity].
    destruct (map_saved comps cx q s w o' p1 w' Hb Hs Hok H) as [HS He]. cbn [dty_of] in HS.
    eapply Hfin; [|reflexivity|assumption|exact HS]. destruct (p_sto q); reflexivity.
  - destruct co; [exfalso; apply Hd; reflexivity|].
    eapply run_method in H as (p1 & H & ->); [|discriminate|discriminate|discriminate|cbn [ser_method]; reflexivity].
    apply (rec_saved comps cx content t pre w o' p1 w' Hb Hs Hok H).
Qed.
End Step.

Theorem ser_saved n : forall o co comps cx w o' p w', built E o -> (co = true -> direct o) -> sctx i comps cx -> ok w ->
  f_ser (depth E n) (Some cx) co o w = (Ok (o', p), w') -> Saved n comps (if co then dty_of o else None) w w' o p.
Proof.
  induction n as [|n IH]; intros o co comps cx w o' p w' Hb Hd Hs Hok H; [discriminate|].
  apply (step_saved n IH o co comps cx w o' p w' Hb Hd Hs Hok H).
Qed.
End Save.
