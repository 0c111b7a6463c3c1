(** Recovery, dictionaries, instances, positions: lemmas. *)
From Coq Require Import List Ascii String Bool Arith ZArith Lia.
From Verif Require Import Base PosixModel FsModel PathModel SerialModel SerialSpec FsProof SerialProof SerialFaults.
Import ListNotations.

(** * Exceptions of deserialization *)
Lemma call_de_exn E c p r e : call_de E c p r = Exn e -> is_ser_error e = true /\ r = Exn e.
Proof.
  unfold call_de. destruct r as [v|e']; [discriminate|]. destruct (is_ser_error e') eqn:Ee; [|discriminate].
  intro H; inversion H; subst; auto.
Qed.

Lemma deser_obj_exn E V p c e : deser_obj E V p c = Exn e -> is_ser_error e = true.
Proof.
  rewrite deser_obj_eq. unfold de_object. destruct c as [n| | | | |].
  - destruct (c_custom (e_class E n)); [intro H; apply call_de_exn in H as (H & _); assumption|].
    destruct (c_kind (e_class E n)); try discriminate; intro H; apply call_de_exn in H as (H & _); assumption.
  - intro H; apply call_de_exn in H as (H & _); assumption.
  - intro H; apply call_de_exn in H as (H & _); assumption.
  - intro H; apply call_de_exn in H as (H & _); assumption.
  - intro H; apply call_de_exn in H as (H & _); assumption.
  - intro H; apply call_de_exn in H as (H & _); assumption.
Qed.

Definition calm (r : res val) : Prop := forall e, r = Exn e -> is_ser_error e = false.
Lemma calm_ok v : calm (Ok v). Proof. intros e H; discriminate. Qed.
Lemma calm_bind {A} (r : res A) (k : A -> res val) :
  (forall e, r = Exn e -> is_ser_error e = false) -> (forall a, r = Ok a -> calm (k a)) -> calm (bind r k).
Proof. intros H1 H2 e He. destruct r as [a|e']; cbn [bind] in He; [eapply H2; eauto|apply H1; congruence]. Qed.
Lemma calm_map {A B} (f : A -> res B) l : (forall x e, In x l -> f x = Exn e -> is_ser_error e = false) ->
  forall e, map_res f l = Exn e -> is_ser_error e = false.
Proof. intros H e He. apply map_res_exn in He as (x & Hx & Ex). eapply H; eassumption. Qed.
Lemma calm_check r : calm r -> calm (check false r).
Proof. intros H e He. unfold check in He. destruct r as [v|e']; cbn [bind] in He; [destruct v; discriminate|apply H; congruence]. Qed.
Lemma calm_call E c p r : calm r -> calm (call_de E c p r).
Proof. intros H e He. apply call_de_exn in He as (_ & He). apply H; assumption. Qed.
Lemma calm_exn e : is_ser_error e = false -> calm (Exn e).
Proof. intros H e' He; inversion He; subst; assumption. Qed.
Lemma calm_str_keys (vs : list (atom * val)) e :
  map_res (fun kv => do k <- str_key (fst kv); Ok (k, snd kv)) vs = Exn e -> is_ser_error e = false.
Proof. apply calm_map. intros [k v] e' _ H. destruct k; inversion H; reflexivity. Qed.

Lemma redeser_calm v : calm (redeser false v).
Proof.
  induction v as [a|l IH|l IH|d IH|c fs IH|c m|i|i] using val_ind'; cbn [redeser]; try apply calm_ok.
  - apply calm_bind; [|intros; apply calm_ok]. apply calm_map. intros x e Hx He. eapply IH; eassumption.
  - apply calm_bind; [|intros; apply calm_ok]. apply calm_map. intros x e Hx He. eapply IH; eassumption.
  - apply calm_bind; [|intros; apply calm_ok]. apply calm_map. intros [k x] e Hx He. cbn [fst snd] in He.
    destruct (redeser false x) eqn:Er; cbn [bind] in He; [discriminate|]. eapply IH; [eassumption|]. congruence.
Qed.

Lemma build_calm fs args e : build fs args = Exn e -> is_ser_error e = false.
Proof.
  induction fs as [|f fs IH]; [discriminate|]. cbn [build]. destruct (build fs args); cbn [bind].
  - destruct (if f_init f then assoc (f_name f) args else None); [discriminate|]. destruct (f_default f); [discriminate|].
    destruct (f_init f); [|discriminate]. intro H; inversion H; reflexivity.
  - intro H; inversion H; subst; apply IH; reflexivity.
Qed.

Lemma obj_calm E p : tame E -> (forall d k x, p = PDict d -> In (k, x) d -> forall y, calm (deser E false x y)) ->
  calm (deser E false p XNone) -> forall c, calm (deser_obj E false p c).
Proof.
  intros (_ & T1 & T2 & T3) Hk Hs c. rewrite deser_obj_eq. unfold de_object. destruct c as [n| | | | |].
  - destruct (c_custom (e_class E n)); [apply calm_call; intros e He; eapply T1; eassumption|].
    destruct (c_kind (e_class E n)).
    + apply calm_call. destruct p as [a|l|d]; try (apply calm_exn; reflexivity). unfold dkids. rewrite map_res_map. cbn [fst snd].
      apply calm_bind.
      * apply calm_map. intros [k x] e Hx He. cbn [fst snd] in He.
        destruct (fst (deser_z E false x) XNone) eqn:Er; cbn [bind] in He; [discriminate|].
        eapply (Hk d k x eq_refl Hx XNone). unfold deser. congruence.
      * intros vs _. apply calm_bind; [apply calm_str_keys|]. intros args _. apply calm_bind; [|intros; apply calm_ok].
        intros e. unfold construct. destruct (forallb _ _); [apply build_calm|intro H; inversion H; reflexivity].
    + apply calm_call. destruct p as [[]| |]; try (apply calm_exn; reflexivity). destruct (member _ _); [apply calm_ok|apply calm_exn; reflexivity].
    + apply calm_call; intros e He; eapply T1; eassumption.
    + apply calm_ok.
  - apply calm_call. destruct p; [apply calm_exn; reflexivity..|apply calm_ok].
  - apply calm_call. destruct p; [apply calm_exn; reflexivity..|]. apply calm_bind; [apply T2|intros; apply calm_ok].
  - apply calm_call. unfold de_undeser. apply calm_bind; [exact Hs|]. intros v _. destruct v; try (apply calm_exn; reflexivity).
    apply calm_bind; [apply calm_str_keys|]. intros args _. destruct (_ && _); [|apply calm_exn; reflexivity].
    destruct (assoc ($"serialized") args) as [s|]; [|apply calm_ok].
    destruct s as [[]| | | | | | | ]; try apply calm_ok;
      (destruct (assoc ($"expected") args) as [[[]| | | | | | | ]|]; try (apply calm_exn; reflexivity); apply redeser_calm).
  - apply calm_call. destruct p as [a|l|d]; try (apply calm_exn; reflexivity). unfold de_exc_undeser.
    apply calm_bind.
    { apply calm_map. intros [k x] e _ He. cbn [fst] in He. destruct k; inversion He; reflexivity. }
    intros names _. destruct (_ && _); [|apply calm_exn; reflexivity]. unfold dkids. rewrite (assoc_a_map (deser_z E false)).
    destruct (assoc_a (key "serialized") d) as [q|] eqn:Eq; [|apply calm_ok]. cbn [option_map].
    assert (Hq : forall x, calm (fst (deser_z E false q) x)) by (intro x; eapply (Hk d _ q eq_refl (assoc_a_in _ _ _ Eq))).
    assert (G : calm match assoc_a (key "expected") d with
        | Some (PAtom (AStr t)) => fst (deser_z E false q) (XStr t)
        | Some (PAtom ANone) => fst (deser_z E false q) XNone
        | _ => Ok (VInvalid (IUndeser None ($"Could not recover __deserialize__ method") (PAtom ANone) None)) end).
    { destruct (assoc_a (key "expected") d) as [[[]| |]|]; try apply calm_ok; apply Hq. }
    destruct q as [[]| |]; try exact G. apply calm_ok.
  - apply calm_call. destruct p as [[]| |]; try (apply calm_exn; reflexivity). destruct (assoc s (e_insts E)); [apply calm_ok|apply calm_exn; reflexivity].
Qed.

Lemma deser_calm E p : tame E -> (forall x, calm (deser E false p x)) /\ (forall c, calm (deser_obj E false p c)).
Proof.
  intro T. pose proof T as (_ & T1 & T2 & T3).
  assert (CA : forall p t, calm (cast_other E p t)).
  { intros q t. unfold cast_other. apply calm_bind; [apply T3|]. intros [a|] _; apply calm_ok. }
  assert (AT : forall p t, calm (de_atomic E p t)).
  { intros q t. destruct q as [a|l|d]; cbn [de_atomic]; try apply CA. destruct (aty_eq_dec _ _); [apply calm_ok|apply CA]. }
  induction p as [a|l IH|d IH] using pser_ind'.
  - assert (S : calm (deser E false (PAtom a) XNone)) by (rewrite deser_atom; apply calm_ok).
    assert (O : forall c, calm (deser_obj E false (PAtom a) c)) by (apply obj_calm; auto; intros; discriminate).
    split; [|assumption]. intro x. destruct (atom_eq_dec a ANone) as [->|N]; [rewrite deser_none; apply calm_ok|].
    rewrite deser_eq by congruence. apply calm_check. destruct x; cbn [inner_expected inner_none]; auto.
    + destruct (str2type E t); [apply O|apply calm_ok].
    + destruct a; try (apply calm_exn; reflexivity); apply calm_ok.
    + destruct a; apply calm_exn; reflexivity.
  - assert (L : calm (de_list (lkids E false (PList l)))).
    { rewrite de_list_eq. apply calm_bind; [|intros; apply calm_ok]. apply calm_map. intros x e Hx He. exact (proj1 (IH x Hx) XNone e He). }
    assert (S : calm (deser E false (PList l) XNone)) by (rewrite deser_eq by congruence; apply calm_check; exact L).
    assert (O : forall c, calm (deser_obj E false (PList l) c)) by (apply obj_calm; auto; intros; discriminate).
    split; [|assumption]. intro x. rewrite deser_eq by congruence. apply calm_check. destruct x; cbn [inner_expected inner_none]; auto.
    + destruct (str2type E t); [apply O|apply calm_ok].
    + apply calm_exn; reflexivity.
  - assert (L : calm (de_dict (dkids E false (PDict d)))).
    { rewrite de_dict_eq. apply calm_bind; [|intros; apply calm_ok]. apply calm_map. intros [k x] e Hx He. cbn [fst snd] in He.
      destruct (deser E false x XNone) eqn:Er; cbn [bind] in He; [discriminate|]. apply (proj1 (IH k x Hx) XNone). congruence. }
    assert (N : calm (inner_none E false (PDict d) (lkids E false (PDict d)) (dkids E false (PDict d)))).
    { unfold inner_none. destruct (assoc_a (AStr SER_TYPE) d) as [[[]| |]|]; try apply calm_ok; try (apply calm_exn; reflexivity); [|exact L].
      destruct (str2type E s) as [c|]; [|apply calm_ok]. unfold dkids. rewrite (assoc_a_map (deser_z E false)).
      destruct (assoc_a (AStr SER_CONTENT) d) as [q|] eqn:Eq; cbn [option_map].
      - apply (proj2 (IH _ _ (assoc_a_in _ _ _ Eq))).
      - assert (G : forall c, calm (deser_obj E false (PDict []) c)).
        { apply obj_calm; auto; [|rewrite deser_dict by reflexivity; apply calm_ok]. intros d' k x He Hi. inversion He; subst; destruct Hi. }
        specialize (G c). rewrite deser_obj_eq in G. exact G. }
    assert (S : calm (deser E false (PDict d) XNone)) by (rewrite deser_eq by congruence; apply calm_check; exact N).
    assert (O : forall c, calm (deser_obj E false (PDict d) c)).
    { apply obj_calm; auto. intros d' k x He Hi. inversion He; subst. apply (proj1 (IH k x Hi)). }
    split; [|assumption]. intro x. rewrite deser_eq by congruence. apply calm_check. destruct x; cbn [inner_expected]; auto.
    + destruct (str2type E t); [apply O|apply calm_ok].
    + apply calm_ok.
Qed.

(** * Recovery *)
Definition exc_info : str := $"Exception encountered while deserializing".
Definition exc_content (t : str) (tr p : pser) : pser :=
  PDict [(key "type", PAtom (AStr t)); (key "info", PAtom (AStr exc_info)); (key "trace", tr);
         (key "serialized", p); (key "expected", PAtom (AStr t))].
Definition exc_stored (t : str) (tr p : pser) : pser := typed n_exc_undeser (exc_content t tr p).
Definition exc_marker (t : str) (tr p : pser) : val := VInvalid (IExcUndeser (Some t) exc_info tr p (Some t)).

Lemma exc_marker_ser E t tr p : p <> PAtom ANone -> ser E false false (exc_marker t tr p) = Ok (exc_stored t tr p).
Proof.
  intro H. cbn [ser exc_marker]. unfold ser_invalid, nn_entry. destruct p as [[]| |]; try reflexivity. congruence.
Qed.

Lemma exc_stored_ready t tr p : json_ready tr -> json_ready p -> json_ready (exc_stored t tr p).
Proof.
  intros H1 H2. apply typed_ready. constructor.
  - intros k x Hi. repeat (destruct Hi as [Hi|Hi]; [inversion Hi; eexists; reflexivity|]). destruct Hi.
  - cbn [map fst]. repeat constructor; cbn [In]; intuition discriminate.
  - intros k x Hi. repeat (destruct Hi as [Hi|Hi]; [inversion Hi; subst; (assumption || constructor)|]). destruct Hi.
Qed.

Lemma deser_exc_stored E V t tr p c : p <> PAtom ANone -> str2type E t = Some c ->
  deser E V (exc_stored t tr p) XNone = check V (deser_obj E V p c).
Proof.
  intros Hp Hc. unfold exc_stored. rewrite deser_typed. change (str2type E n_exc_undeser) with (Some CExcUndeser). cbv iota beta.
  rewrite deser_obj_eq. unfold de_object.
  assert (G : de_exc_undeser
      [(key "type", PAtom (AStr t)); (key "info", PAtom (AStr exc_info)); (key "trace", tr); (key "serialized", p); (key "expected", PAtom (AStr t))]
      (dkids E V (exc_content t tr p)) = deser E V p (XStr t)).
  { destruct p as [[]| |]; try reflexivity. congruence. }
  unfold exc_content at 2. cbv iota beta. fold (exc_content t tr p). rewrite G.
  rewrite deser_eq by assumption. cbn [inner_expected]. rewrite Hc.
  destruct (deser_obj E V p c) as [v|e] eqn:Eo.
  - assert (K : (exists i, v = VInvalid i) \/ (forall i, v <> VInvalid i)) by (destruct v; ((right; intros; discriminate) || (left; eexists; reflexivity))).
    destruct K as [(i & ->)|K]; [destruct V; reflexivity|]. rewrite check_valid by assumption. cbn [call_de]. apply check_valid; assumption.
  - pose proof (deser_obj_exn _ _ _ _ _ Eo) as He. unfold check; cbn [bind]. unfold call_de. rewrite He. reflexivity.
Qed.

Lemma build_missing fs args f : In f fs -> f_init f = true -> f_default f = None -> assoc (f_name f) args = None ->
  exists e, build fs args = Exn e.
Proof.
  induction fs as [|g fs IH]; intros Hi Hf Hd Ha; [destruct Hi|]. cbn [build]. destruct Hi as [->|Hi].
  - destruct (build fs args) as [r|e]; cbn [bind]; [|exists e; reflexivity]. rewrite Hf, Ha, Hd. eexists; reflexivity.
  - destruct (IH Hi Hf Hd Ha) as (e & ->). eexists; reflexivity.
Qed.

Lemma calm_marker E c p r t : calm r -> (forall v, r <> Ok v) -> type2str E c = Some t ->
  exists tr, call_de E c p r = Ok (exc_marker t (e_trace E tr) p).
Proof.
  intros H1 H2 Ht. destruct r as [v|e]; [exfalso; eapply H2; reflexivity|]. unfold call_de. rewrite (H1 e eq_refl), Ht. eexists; reflexivity.
Qed.

Lemma last_name_nodot s : ~ In "."%char s -> last_name s = s.
Proof.
  intro H. unfold last_name.
  set (go := fix go (cur s : str) : str :=
     match s with
     | [] => cur
     | c :: r => if ascii_dec c "." then go [] r else go (cur ++ [c]) r
     end).
  assert (G : forall b, ~ In "."%char b -> forall cur, go cur b = cur ++ b).
  { clear. induction b as [|c b IH]; intros H cur; cbn [go]; [symmetry; apply app_nil_r|].
    destruct (ascii_dec c ".") as [->|]; [exfalso; apply H; left; reflexivity|].
    rewrite IH by (intro; apply H; right; assumption). rewrite <- app_assoc; reflexivity. }
  apply (G s H []).
Qed.

Lemma rejects_marker E t p : tame E -> rejects E t p ->
  exists c tr, str2type E t = Some c /\ deser_obj E false p c = Ok (exc_marker t (e_trace E tr) p).
Proof.
  intros T H. pose proof T as (_ & T1 & _).
  assert (KD : forall c fds d, registered E c t -> c_kind (e_class E c) = KData fds -> p = PDict d ->
     (forall args, (forall k, In k (map fst args) -> In (AStr k) (map fst d)) -> (forall k, In (AStr k) (map fst d) -> In k (map fst args)) -> forall r, construct fds args <> Ok r) ->
     exists c tr, str2type E t = Some c /\ deser_obj E false p c = Ok (exc_marker t (e_trace E tr) p)).
  { intros c fds d Hr Hk -> Hno. pose proof Hr as (R1 & R2 & R3 & R4). exists (CUser c).
    pose proof (proj2 (deser_calm E (PDict d) T) (CUser c)) as _.
    rewrite deser_obj_eq. unfold de_object. rewrite R2, Hk.
    match goal with |- context [call_de E ?c ?q ?r] => destruct (calm_marker E c q r t) as (tr & Htr) end.
    - unfold dkids. rewrite map_res_map. cbn [fst snd]. apply calm_bind.
      + apply calm_map. intros [k x] e Hx He. cbn [fst snd] in He.
        destruct (fst (deser_z E false x) XNone) eqn:Er; cbn [bind] in He; [discriminate|].
        eapply (proj1 (deser_calm E x T) XNone). unfold deser. congruence.
      + intros vs _. apply calm_bind; [apply calm_str_keys|]. intros args _. apply calm_bind; [|intros; apply calm_ok].
        intros e. unfold construct. destruct (forallb _ _); [apply build_calm|intro H'; inversion H'; reflexivity].
    - unfold dkids. rewrite map_res_map. cbn [fst snd]. intros v Hv.
      destruct (map_res _ d) as [vs|e] eqn:Ev in Hv; cbn [bind] in Hv; [|discriminate].
      destruct (map_res _ vs) as [args|e] eqn:Ea in Hv; cbn [bind] in Hv; [|discriminate].
      destruct (construct fds args) as [fvs|e] eqn:Ec; cbn [bind] in Hv; [|discriminate].
      apply str_keys_spec in Ea. pose proof (forall2_fst (fun q => deser E false q XNone) _ _ Ev) as Hf. subst vs.
      rewrite map_map in Hf. cbn [fst] in Hf. eapply (Hno args); [| |exact Ec].
      + intros k Hk'. rewrite <- Hf. apply in_map_iff in Hk' as (kv & <- & Hi). apply in_map_iff. exists kv; auto.
      + intros k Hk'. rewrite <- Hf in Hk'. apply in_map_iff in Hk' as (kv & He & Hi). inversion He; subst. apply in_map; assumption.
    - exact R1.
    - exists tr. split; [apply str2type_user; assumption|exact Htr]. }
  destruct H as [c e Hr Hk He Hs|c ms s Hr Hk Hp Hd Hm|c fds Hr Hk Hp|c fds d k x Hr Hk Hp Hi Hno|c fds d f Hr Hk Hp Hf Hfi Hfd Hno].
  - pose proof Hr as (R1 & R2 & R3 & R4). exists (CUser c), e. split; [apply str2type_user; assumption|].
    rewrite deser_obj_eq. unfold de_object. rewrite R2, Hk, He. unfold call_de. change (is_ser_error e = false) in Hs. rewrite Hs. cbn [type2str]. rewrite R1. reflexivity.
  - pose proof Hr as (R1 & R2 & R3 & R4). exists (CUser c), KeyError. split; [apply str2type_user; assumption|].
    rewrite deser_obj_eq. unfold de_object. rewrite R2, Hk, Hp. rewrite last_name_nodot by assumption.
    destruct (member s ms) eqn:Em; [apply member_in in Em; contradiction|]. unfold call_de. cbn [is_ser_error type2str]. rewrite R1. reflexivity.
  - pose proof Hr as (R1 & R2 & R3 & R4). exists (CUser c), AttributeError. split; [apply str2type_user; assumption|].
    rewrite deser_obj_eq. unfold de_object. rewrite R2, Hk. unfold call_de.
    destruct p; cbn [is_ser_error type2str]; try (rewrite R1; reflexivity). exfalso; eapply Hp; reflexivity.
  - eapply KD; try eassumption. intros args _ Ha r Hc. apply construct_inv in Hc as (_ & Hc).
    assert (In k (map fst args)) as Hk' by (apply Ha; apply (in_map fst) in Hi; exact Hi).
    apply in_map_iff in Hk' as ([k' v] & Hke & Hkv). cbn [fst] in Hke; subst k'. destruct (Hc _ _ Hkv) as (f & F1 & F2 & F3). eapply Hno; eassumption.
  - eapply KD; try eassumption. intros args Ha _ r Hc. apply construct_inv in Hc as (Hc & _).
    destruct (build_missing fds args f) as (e & Hb); try assumption; [|congruence].
    apply assoc_none_notin. intro Hi. apply Hno. apply Ha; assumption.
Qed.

(** Stored data that leads to the object made from [p] with type [t]. *)
Inductive stores (t : str) (p : pser) : pser -> Prop :=
| st_plain : stores t p (typed t p)
| st_exc tr : json_ready tr -> stores t p (exc_stored t tr p).

Lemma stores_deser E V t p s c : p <> PAtom ANone -> str2type E t = Some c -> stores t p s ->
  deser E V s XNone = check V (deser_obj E V p c).
Proof.
  intros Hp Hc [|tr Htr].
  - rewrite deser_typed, Hc. reflexivity.
  - apply deser_exc_stored; assumption.
Qed.

Lemma reload_step fr E t p s : tame E -> json_traces E -> json_ready p -> p <> PAtom ANone -> rejects E t p -> stores t p s ->
  exists v s', deser E false s XNone = Ok v /\ ser E false false v = Ok s' /\ stores t p (through_json fr s').
Proof.
  intros T J Hr Hp Hrej Hs. destruct (rejects_marker E t p T Hrej) as (c & e & Hc & Hm).
  exists (exc_marker t (e_trace E e) p), (exc_stored t (e_trace E e) p).
  rewrite (stores_deser E false t p s c), Hm by assumption. repeat split.
  - apply exc_marker_ser; assumption.
  - rewrite through_json_ready by (apply exc_stored_ready; [apply J|assumption]). constructor. apply J.
Qed.

Lemma reloads_stores fr Es t p : json_ready p -> p <> PAtom ANone ->
  Forall (fun E => tame E /\ json_traces E /\ rejects E t p) Es ->
  forall s, stores t p s -> (exists s', reloads fr Es s s') /\ forall s', reloads fr Es s s' -> stores t p s'.
Proof.
  intros Hr Hp H. induction H as [|E Es (T & J & Hrej) HEs IH]; intros s Hs.
  - split; [exists s; constructor|]. intros s' H. inversion H; subst; assumption.
  - destruct (reload_step fr E t p s T J Hr Hp Hrej Hs) as (v & s1 & H1 & H2 & H3). destruct (IH _ H3) as ((s' & Hs') & IH').
    split; [exists s'; econstructor; eassumption|]. intros s'' Hrl. inversion Hrl; subst.
    assert (v0 = v) by congruence; subst. assert (s'0 = s1) by congruence; subst. apply IH'; assumption.
Qed.

(** * Data that stays a marker *)
(** [q] under the marker class [nm] never becomes a value again. *)
Definition dead (nm : str) (q : pser) : Prop :=
  json_ready q /\ q <> PAtom ANone /\
  forall E V, exists c, str2type E nm = Some c /\
    forall v, deser_obj E V q c = Ok v -> exists e, v = exc_marker nm (e_trace E e) q.

Lemma dead_deser E V nm q s v : dead nm q -> stores nm q s -> deser E V s XNone = Ok v ->
  exists e, v = exc_marker nm (e_trace E e) q.
Proof.
  intros (Hj & Hq & Hd) Hs H. destruct (Hd E V) as (c & Hc & Hv). rewrite (stores_deser E V nm q s c) in H by assumption.
  destruct (deser_obj E V q c) as [w|e]; cbn [check bind] in H; [|discriminate].
  destruct (Hv w eq_refl) as (e & ->). exists e. unfold check, exc_marker in H. cbn [bind] in H. destruct V; [discriminate|]. inversion H; reflexivity.
Qed.

Lemma dead_reloads fr Es nm q : dead nm q -> Forall json_traces Es ->
  forall s, stores nm q s -> forall s', reloads fr Es s s' -> stores nm q s'.
Proof.
  intros Hd H. induction H as [|E Es J HEs IH]; intros s Hs s' Hr.
  - inversion Hr; subst; assumption.
  - inversion Hr as [|E0 Es0 s0 v s1 s2 H1 H2 H5]; subst. destruct (dead_deser _ _ _ _ _ _ Hd Hs H1) as (e & ->).
    rewrite exc_marker_ser in H2 by apply Hd. inversion H2; subst. eapply IH; [|eassumption].
    rewrite through_json_ready by (apply exc_stored_ready; [apply J|apply Hd]). constructor. apply J.
Qed.

Lemma never_ok_marker E c p r nm v : (forall w, r <> Ok w) -> type2str E c = Some nm -> call_de E c p r = Ok v ->
  exists e, v = exc_marker nm (e_trace E e) p.
Proof.
  intros Hr Ht H. destruct r as [w|e]; [exfalso; eapply Hr; reflexivity|]. unfold call_de in H.
  destruct (is_ser_error e); [discriminate|]. rewrite Ht in H. inversion H. exists e; reflexivity.
Qed.

Lemma dead_undeser d : json_ready (PDict d) -> assoc_a (AStr SER_TYPE) d = None -> In (key "ser_type") (map fst d) ->
  dead n_undeser (PDict d).
Proof.
  intros Hj Hn Hi. split; [assumption|]. split; [discriminate|]. intros E V. exists CUndeser. split; [reflexivity|].
  intros v Hv. rewrite deser_obj_eq in Hv. unfold de_object in Hv. refine (never_ok_marker _ _ _ _ _ _ _ _ Hv); [|reflexivity].
  intros w Hw. unfold de_undeser in Hw. rewrite deser_dict in Hw by assumption.
  destruct (map_res _ d) as [vs|e] eqn:Ev in Hw; cbn [bind] in Hw; [|discriminate].
  destruct (map_res _ vs) as [args|e] eqn:Ea in Hw; cbn [bind] in Hw; [|discriminate].
  destruct (forallb _ _ && _ && _) eqn:Ef in Hw; [|discriminate].
  apply andb_true_iff in Ef as (Ef & _). apply andb_true_iff in Ef as (Ef & _). rewrite forallb_forall in Ef.
  apply str_keys_spec in Ea. pose proof (forall2_fst (fun q => deser E V q XNone) _ _ Ev) as Hf. subst vs.
  rewrite map_map in Hf. cbn [fst] in Hf. rewrite <- Hf in Hi. apply in_map_iff in Hi as ([k x] & Hk & Hi).
  specialize (Ef k (in_map fst _ _ Hi)). unfold key in Hk. cbn [fst] in Hk. inversion Hk; subst k. vm_compute in Ef. discriminate.
Qed.

Lemma dead_exc d k : json_ready (PDict d) -> In k [$"type"; $"info"; $"trace"; $"serialized"; $"expected"] ->
  ~ In (AStr k) (map fst d) -> dead n_exc_undeser (PDict d).
Proof.
  intros Hj Hk Hn. split; [assumption|]. split; [discriminate|]. intros E V. exists CExcUndeser. split; [reflexivity|].
  intros v Hv. rewrite deser_obj_eq in Hv. unfold de_object in Hv. refine (never_ok_marker _ _ _ _ _ _ _ _ Hv); [|reflexivity].
  intros w Hw. unfold de_exc_undeser in Hw.
  destruct (map_res (fun kv : atom * pser => str_key (fst kv)) d) as [names|e] eqn:En; cbn [bind] in Hw; [|discriminate].
  match type of Hw with (if ?a && ?b then _ else _) = _ => destruct b eqn:Ef; [|rewrite andb_false_r in Hw; discriminate] end.
  rewrite forallb_forall in Ef. specialize (Ef k Hk). apply member_in in Ef. apply Hn.
  apply map_res_forall2 in En. destruct (Forall2_in_r _ _ _ _ En Ef) as ([a x] & Ha & Hs). cbn [fst] in Hs.
  destruct a; inversion Hs; subst. apply (in_map fst) in Ha. exact Ha.
Qed.

(** * Dictionaries through JSON *)
Lemma assoc_set_map {A B} (f : A -> B) k v l :
  assoc_set k (f v) (map (fun kv => (fst kv, f (snd kv))) l) = map (fun kv => (fst kv, f (snd kv))) (assoc_set k v l).
Proof.
  induction l as [|[x w] l IH]; [reflexivity|]. cbn [map assoc_set fst snd]. destruct (str_eq_dec x k); cbn [map fst snd]; [reflexivity|].
  rewrite IH; reflexivity.
Qed.
Lemma json_object_map {A B} (f : A -> B) l :
  json_object (map (fun kv => (fst kv, f (snd kv))) l) = map (fun kv => (fst kv, f (snd kv))) (json_object l).
Proof.
  unfold json_object.
  assert (G : forall acc, fold_left (fun acc kv => assoc_set (fst kv) (snd kv) acc) (map (fun kv => (fst kv, f (snd kv))) l) (map (fun kv => (fst kv, f (snd kv))) acc)
     = map (fun kv => (fst kv, f (snd kv))) (fold_left (fun acc kv => assoc_set (fst kv) (snd kv) acc) l acc)); [|apply (G [])].
  induction l as [|[k v] l IH]; intro acc; [reflexivity|]. cbn [map fold_left fst snd]. rewrite assoc_set_map. apply IH.
Qed.

Lemma assoc_set_same {A} k (v : A) l : assoc k (assoc_set k v l) = Some v.
Proof.
  induction l as [|[x w] l IH]; cbn [assoc_set assoc].
  - destruct (str_eq_dec k k); congruence.
  - destruct (str_eq_dec x k) as [->|]; cbn [assoc]; [destruct (str_eq_dec k k); congruence|]. destruct (str_eq_dec x k); [congruence|assumption].
Qed.
Lemma assoc_set_other {A} k k' (v : A) l : k <> k' -> assoc k (assoc_set k' v l) = assoc k l.
Proof.
  intro N. induction l as [|[x w] l IH]; cbn [assoc_set assoc].
  - destruct (str_eq_dec k' k); congruence.
  - destruct (str_eq_dec x k') as [->|]; cbn [assoc].
    + destruct (str_eq_dec k' k); congruence.
    + destruct (str_eq_dec x k); [reflexivity|assumption].
Qed.
Lemma assoc_set_keys {A} k (v : A) l : NoDup (map fst l) -> NoDup (map fst (assoc_set k v l)) /\ (forall x, In x (map fst (assoc_set k v l)) <-> x = k \/ In x (map fst l)).
Proof.
  induction l as [|[x w] l IH]; intro Hn.
  - cbn. split; [repeat constructor; intros []|]. intro x; split; [intros [->|[]]; left; reflexivity|intros [->|[]]; left; reflexivity].
  - cbn [assoc_set]. inversion Hn; subst. destruct (IH H2) as (I1 & I2). destruct (str_eq_dec x k) as [->|N]; cbn [map fst].
    + split; [assumption|]. intro y; split; [intros [->|Hy]; [left; reflexivity|right; right; assumption]|intros [->|[->|Hy]]; [left; reflexivity|left; reflexivity|right; assumption]].
    + split.
      * constructor; [|assumption]. rewrite I2. intros [->|H]; [apply N; reflexivity|contradiction].
      * intro y. cbn [In]. rewrite I2. intuition.
Qed.

Lemma assoc_app {A} k (l r : list (str * A)) : assoc k (l ++ r) = match assoc k l with Some v => Some v | None => assoc k r end.
Proof. induction l as [|[x v] l IH]; [reflexivity|]. cbn [app assoc]. destruct (str_eq_dec x k); [reflexivity|assumption]. Qed.

Lemma json_object_spec {A} (l : list (str * A)) :
  NoDup (map fst (json_object l)) /\
  (forall k, In k (map fst (json_object l)) <-> In k (map fst l)) /\
  (forall k, assoc k (json_object l) = last_value k l).
Proof.
  unfold json_object, last_value.
  assert (G : forall acc, NoDup (map fst acc) ->
    let r := fold_left (fun acc kv => assoc_set (fst kv) (snd kv) acc) l acc in
    NoDup (map fst r) /\ (forall k, In k (map fst r) <-> In k (map fst acc) \/ In k (map fst l)) /\
    (forall k, assoc k r = match assoc k (rev l) with Some v => Some v | None => assoc k acc end)).
  { induction l as [|[k v] l IH]; intros acc Hn; cbn [fold_left fst snd map rev].
    - repeat split; try assumption; cbn [In]; tauto.
    - destruct (assoc_set_keys k v acc Hn) as (K1 & K2). destruct (IH _ K1) as (I1 & I2 & I3). repeat split; [assumption| | |].
      + rewrite I2, K2. cbn [In]. intuition.
      + rewrite I2, K2. cbn [In]. intuition.
      + intro k0. rewrite I3, assoc_app. destruct (assoc k0 (rev l)); [reflexivity|]. cbn [assoc].
        destruct (str_eq_dec k k0) as [->|N]; [apply assoc_set_same|apply assoc_set_other; congruence]. }
  destruct (G [] (NoDup_nil _)) as (G1 & G2 & G3). cbv zeta in *. repeat split.
  - assumption.
  - intro H. apply G2 in H as [[]|H]; assumption.
  - intro H. apply G2. right; assumption.
  - intro k. rewrite G3. destruct (assoc k (rev l)); reflexivity.
Qed.

Lemma dict_coded E d : (forall k x, In (k, x) d -> plain E x) ->
  exists enc : list (atom * (val * pser)), map (fun kz => (fst kz, fst (snd kz))) enc = d /\
    (forall k z, In (k, z) enc -> coded E (fst z) (snd z)) /\
    forall V, ser E V false (VDict d) = Ok (PDict (map (fun kz => (fst kz, snd (snd kz))) enc)).
Proof.
  intro H. assert (G : exists enc : list (atom * (val * pser)), map (fun kz => (fst kz, fst (snd kz))) enc = d /\
    (forall k z, In (k, z) enc -> coded E (fst z) (snd z))).
  { induction d as [|[k x] d IH]; [exists []; split; [reflexivity|intros k z []]|].
    destruct IH as (enc & H1 & H2); [intros; eapply H; right; eassumption|].
    destruct (plain_coded E x) as (p & Hp); [eapply H; left; reflexivity|].
    exists ((k, (x, p)) :: enc). split; [cbn [map fst snd]; rewrite H1; reflexivity|].
    intros k0 z [Hi|Hi]; [inversion Hi; subst; assumption|eapply H2; eassumption]. }
  destruct G as (enc & H1 & H2). exists enc. split; [assumption|]. split; [assumption|]. intro V. cbn [ser]. rewrite <- H1, map_res_map.
  rewrite (map_res_ok _ (fun kz => (fst kz, snd (snd kz)))); [reflexivity|].
  intros [k [x p]] Hi. cbn [fst snd]. destruct (H2 _ _ Hi) as (H3 & _). cbn [fst snd] in H3. rewrite H3. reflexivity.
Qed.

Definition stringed (fr : Z -> str) (d : list (atom * val)) : list (str * val) := map (fun kv => (json_key fr (fst kv), snd kv)) d.

Lemma dict_json fr E V d : (forall k x, In (k, x) d -> plain E x) ->
  exists s enc, ser E V false (VDict d) = Ok s /\
    map (fun kz => (fst kz, fst (snd kz))) enc = json_object (stringed fr d) /\
    (forall k z, In (k, z) enc -> coded E (fst z) (snd z)) /\
    through_json fr s = PDict (map (fun kz : str * (val * pser) => (AStr (fst kz), snd (snd kz))) enc).
Proof.
  intro H. destruct (dict_coded E d H) as (enc & H1 & H2 & H3). eexists. exists (json_object (map (fun kz => (json_key fr (fst kz), snd kz)) enc)).
  split; [apply H3|]. split; [|split].
  - rewrite <- (json_object_map (@fst val pser)). f_equal. unfold stringed. rewrite <- H1, !map_map. reflexivity.
  - intros k z Hi. assert (Hin : In (k, z) (map (fun kz => (json_key fr (fst kz), snd kz)) enc)).
    { destruct (json_object_spec (map (fun kz : atom * (val * pser) => (json_key fr (fst kz), snd kz)) enc)) as (N & _ & L).
      apply (assoc_in_nodup k z) in Hi; [|assumption]. rewrite L in Hi. unfold last_value in Hi. apply assoc_in in Hi. apply in_rev in Hi. assumption. }
    apply in_map_iff in Hin as ([k' z'] & He & Hin). inversion He; subst. eapply H2; eassumption.
  - unfold through_json. cbn [to_json of_json]. f_equal. rewrite map_map. cbn [fst snd].
    rewrite <- (map_map (fun kz : atom * (val * pser) => (json_key fr (fst kz), snd kz)) (fun kz => (fst kz, to_json fr (snd (snd kz))))).
    rewrite (json_object_map (fun z : val * pser => to_json fr (snd z))). rewrite map_map. cbn [fst snd].
    apply map_ext_in. intros [k z] Hi. cbn [fst snd]. f_equal.
    apply (through_json_ready fr).
    assert (Hin : In (k, z) (map (fun kz => (json_key fr (fst kz), snd kz)) enc)).
    { destruct (json_object_spec (map (fun kz : atom * (val * pser) => (json_key fr (fst kz), snd kz)) enc)) as (N & _ & L).
      apply (assoc_in_nodup k z) in Hi; [|assumption]. rewrite L in Hi. unfold last_value in Hi. apply assoc_in in Hi. apply in_rev in Hi. assumption. }
    apply in_map_iff in Hin as ([k' z'] & He & Hin). inversion He; subst. apply (H2 _ _ Hin).
Qed.

(** A dict without reserved key. *)
Lemma dict_roundtrip fr E V d : (forall k x, In (k, x) d -> plain E x) -> ~ In SER_TYPE (map fst (stringed fr d)) ->
  exists s, ser E V false (VDict d) = Ok s /\
    deser E V (through_json fr s) XNone = Ok (VDict (map (fun kv => (AStr (fst kv), untuple (snd kv))) (json_object (stringed fr d)))).
Proof.
  intros H Hn. destruct (dict_json fr E V d H) as (s & enc & H1 & H2 & H3 & H4). exists s. split; [assumption|].
  rewrite H4. rewrite deser_dict.
  - rewrite map_res_map. cbn [fst snd]. rewrite (map_res_ok _ (fun kz => (AStr (fst kz), untuple (fst (snd kz))))).
    + cbn [bind]. rewrite <- H2, map_map. reflexivity.
    + intros [k z] Hi. cbn [fst snd]. destruct (H3 _ _ Hi) as (_ & _ & H5 & _). rewrite H5. reflexivity.
  - apply assoc_a_none. rewrite map_map. cbn [fst]. intro Hi. apply in_map_iff in Hi as ([k z] & He & Hi). cbn [fst] in He. inversion He; subst.
    apply Hn. apply (proj1 (proj2 (json_object_spec (stringed fr d)))). rewrite <- H2, map_map. cbn [fst].
    apply (in_map fst) in Hi. exact Hi.
Qed.

(** A serialized plain value is an atom only for atoms. *)
Lemma coded_atom E x a : plain E x -> coded E x (PAtom a) -> x = VAtom a.
Proof.
  intros Hp (H & _). specialize (H false). destruct Hp; cbn [ser] in H.
  - inversion H; reflexivity.
  - destruct (map_res _ l); discriminate.
  - destruct (map_res _ l); discriminate.
  - destruct (map_res _ d); discriminate.
  - rewrite (obj_type_registered E c t) in H by assumption. match type of H with bind ?r _ = _ => destruct r as [[]|]; discriminate end.
  - destruct (inst_name (e_insts E) i); discriminate.
  - rewrite (obj_type_registered E c t) in H by assumption. match type of H with bind ?r _ = _ => destruct r as [[]|]; discriminate end.
Qed.

Lemma dict_reserved fr E V d : (forall k x, In (k, x) d -> plain E x) -> In SER_TYPE (map fst (stringed fr d)) ->
  (forall k t, In (k, VAtom (AStr t)) d -> json_key fr k = SER_TYPE -> str2type E t = None) ->
  exists s, ser E V false (VDict d) = Ok s /\ forall r, deser E V (through_json fr s) XNone <> Ok (VDict r).
Proof.
  intros H Hi Hu. destruct (dict_json fr E V d H) as (s & enc & H1 & H2 & H3 & H4). exists s. split; [assumption|]. intros r Hr.
  destruct (json_object_spec (stringed fr d)) as (J1 & J2 & J3).
  assert (Hk : In SER_TYPE (map fst enc)).
  { apply J2 in Hi. rewrite <- H2, map_map in Hi. exact Hi. }
  apply in_map_iff in Hk as ([k0 [x p]] & Hk0 & Hin). cbn [fst] in Hk0; subst k0.
  assert (Hnd : NoDup (map fst enc)) by (rewrite <- H2, map_map in J1; exact J1).
  assert (Ha : assoc_a (AStr SER_TYPE) (map (fun kz : str * (val * pser) => (AStr (fst kz), snd (snd kz))) enc) = Some p).
  { clear -Hnd Hin. induction enc as [|[k z] enc IH]; [destruct Hin|]. cbn [map fst snd]. rewrite assoc_a_cons.
    inversion Hnd; subst. destruct Hin as [Hi|Hi].
    - inversion Hi; subst. cbn [snd]. destruct (atom_eq_dec _ _); congruence.
    - destruct (atom_eq_dec (AStr k) (AStr SER_TYPE)) as [He|]; [|apply IH; assumption]. inversion He; subst. exfalso. apply H1.
      apply (in_map fst) in Hi. exact Hi. }
  assert (Hx : In (SER_TYPE, x) (stringed fr d)).
  { assert (G : In (SER_TYPE, x) (json_object (stringed fr d))) by (rewrite <- H2; apply in_map_iff; exists (SER_TYPE, (x, p)); auto).
    apply (assoc_in_nodup _ _ _ J1) in G. rewrite J3 in G. apply assoc_in in G. apply in_rev in G. exact G. }
  apply in_map_iff in Hx as ([k x'] & He & Hx). inversion He; subst x'. cbn [fst] in *.
  pose proof (H3 _ _ Hin) as Hc. cbn [fst snd] in Hc.
  rewrite H4, deser_eq in Hr by discriminate. cbn [inner_expected] in Hr. unfold inner_none in Hr. rewrite Ha in Hr.
  destruct p as [a|l|d']; [|discriminate|discriminate].
  assert (x = VAtom a) as -> by (eapply coded_atom; [eapply H; eassumption|assumption]).
  destruct a; try (unfold check, process_invalid in Hr; cbn [bind] in Hr; destruct V; discriminate).
  rewrite (Hu _ _ Hx) in Hr by congruence. unfold check, process_invalid in Hr; cbn [bind] in Hr; destruct V; discriminate.
Qed.

(** * Instances *)
Lemma assoc_set_order {A} k (v : A) l : map fst (assoc_set k v l) = if in_dec str_eq_dec k (map fst l) then map fst l else map fst l ++ [k].
Proof.
  induction l as [|[x w] l IH]; [reflexivity|]. cbn [assoc_set map fst].
  destruct (str_eq_dec x k) as [->|N].
  - destruct (in_dec str_eq_dec k (k :: map fst l)) as [|n]; [reflexivity|exfalso; apply n; left; reflexivity].
  - cbn [map fst]. rewrite IH. destruct (in_dec str_eq_dec k (map fst l)) as [i|n], (in_dec str_eq_dec k (x :: map fst l)) as [i'|n']; try reflexivity.
    + exfalso; apply n'; right; assumption.
    + exfalso; destruct i'; contradiction.
Qed.

Lemma held_assoc h n i : held h n i <-> assoc n (json_object h) = Some i.
Proof.
  rewrite (proj2 (proj2 (json_object_spec h))). unfold last_value. split.
  - intros [b a -> Hn]. rewrite rev_app_distr. cbn [rev]. rewrite !assoc_app.
    assert (assoc n (rev a) = None) as ->.
    { apply assoc_none_notin. rewrite map_rev. intro H. apply in_rev in H. contradiction. }
    cbn [assoc]. destruct (str_eq_dec n n); congruence.
  - intro H. assert (G : exists l1 l2, rev h = l1 ++ (n, i) :: l2 /\ ~ In n (map fst l1)).
    { revert H. generalize (rev h). induction l as [|[x v] l IH]; [discriminate|]. cbn [assoc]. destruct (str_eq_dec x n) as [->|N]; intro H.
      - inversion H; subst. exists [], l. split; [reflexivity|intros []].
      - destruct (IH H) as (l1 & l2 & -> & Hl). exists ((x, v) :: l1), l2. split; [reflexivity|]. cbn [map fst]. intros [?|?]; contradiction. }
    destruct G as (l1 & l2 & G & Hl). apply (f_equal (@rev _)) in G. rewrite rev_involutive, rev_app_distr in G. cbn [rev] in G. rewrite <- app_assoc in G.
    exists (rev l2) (rev l1); [exact G|]. rewrite map_rev. intro Hi. apply in_rev in Hi. contradiction.
Qed.

(** * Positions *)
Lemma build_app fs1 fs2 args : build (fs1 ++ fs2) args = (do b <- build fs2 args; do a <- build fs1 args; Ok (a ++ b)).
Proof.
  induction fs1 as [|f fs1 IH].
  - cbn [app build]. destruct (build fs2 args); reflexivity.
  - cbn [app build]. rewrite IH. destruct (build fs2 args) as [b|]; cbn [bind]; [|reflexivity]. destruct (build fs1 args) as [a|]; cbn [bind]; [|reflexivity].
    destruct (if f_init f then assoc (f_name f) args else None); [reflexivity|]. destruct (f_default f); [reflexivity|].
    destruct (f_init f); reflexivity.
Qed.
Lemma build_ext fs a1 a2 : (forall f, In f fs -> assoc (f_name f) a1 = assoc (f_name f) a2) -> build fs a1 = build fs a2.
Proof.
  induction fs as [|f fs IH]; intro H; [reflexivity|]. cbn [build]. rewrite IH by (intros; apply H; right; assumption).
  rewrite (H f) by (left; reflexivity). reflexivity.
Qed.
Lemma build_total fs args : (forall f, In f fs -> f_init f = true -> f_default f = None -> In (f_name f) (map fst args)) -> exists r, build fs args = Ok r.
Proof.
  induction fs as [|f fs IH]; intro H; [exists []; reflexivity|]. cbn [build].
  destruct IH as (r & ->); [intros; apply H; [right; assumption|assumption|assumption]|]. cbn [bind].
  destruct (f_default f) eqn:Ed.
  - destruct (if f_init f then assoc (f_name f) args else None); eexists; reflexivity.
  - destruct (f_init f) eqn:Ei; [|eexists; reflexivity]. destruct (assoc_some_in (f_name f) args) as (v & ->); [apply H; auto; left; reflexivity|]. eexists; reflexivity.
Qed.

Lemma map_res_mid {A B} (f : A -> res B) b x a ys : map_res f (b ++ x :: a) = Ok ys ->
  exists bs y as', map_res f b = Ok bs /\ f x = Ok y /\ map_res f a = Ok as' /\ ys = bs ++ y :: as'.
Proof.
  rewrite map_res_app, map_res_cons. destruct (map_res f b) as [bs|]; cbn [bind]; [|discriminate].
  destruct (f x) as [y|]; cbn [bind]; [|discriminate]. destruct (map_res f a) as [as'|]; cbn [bind]; [|discriminate].
  intro H; inversion H; subst. exists bs, y, as'. auto.
Qed.
Lemma map_res_mid_ok {A B} (f : A -> res B) b x a bs y as' : map_res f b = Ok bs -> f x = Ok y -> map_res f a = Ok as' ->
  map_res f (b ++ x :: a) = Ok (bs ++ y :: as').
Proof. intros H1 H2 H3. rewrite map_res_app, map_res_cons, H1. cbn [bind]. rewrite H2. cbn [bind]. rewrite H3. reflexivity. Qed.

(** Replacing the part at a position read by deserialization changes the result only there. *)
Lemma deser_position E y : reads E y ->
  exists x, forall p v, deser E false p XNone = Ok v -> deser E false (pfill y p) XNone = Ok (fill x v).
Proof.
  induction 1 as [|b y a H IH Hq|b k y a H IH Hq Hn|c t fds b k y a f Hr Hk Hnd H IH Hq Hf Hfi Hfn Hkb Hkeys Hreq].
  - exists XHole. intros p v Hp. exact Hp.
  - destruct IH as (x & Hx).
    destruct (map_res_total (fun q => deser E false q XNone) b) as (bs & Hb); [intros; apply Hq; apply in_or_app; left; assumption|].
    destruct (map_res_total (fun q => deser E false q XNone) a) as (as' & Ha); [intros; apply Hq; apply in_or_app; right; assumption|].
    exists (XInList bs x as'). intros p v Hp. cbn [pfill fill]. rewrite deser_list, (map_res_mid_ok _ b _ a bs (fill x v) as') by auto. reflexivity.
  - destruct IH as (x & Hx).
    set (g := fun kq : atom * pser => do v <- deser E false (snd kq) XNone; Ok (fst kq, v)).
    assert (TG : forall kq, In kq (b ++ a) -> exists r, g kq = Ok r).
    { intros kq Hi. destruct (Hq kq Hi) as (v & Hv). unfold g. rewrite Hv. eexists; reflexivity. }
    destruct (map_res_total g b) as (bs & Hb); [intros; apply TG; apply in_or_app; left; assumption|].
    destruct (map_res_total g a) as (as' & Ha); [intros; apply TG; apply in_or_app; right; assumption|].
    exists (XInDict bs k x as'). intros p v Hp. cbn [pfill fill]. rewrite deser_dict.
    + fold g. rewrite (map_res_mid_ok g b _ a bs (k, fill x v) as'); auto. unfold g. cbn [fst snd]. rewrite (Hx _ _ Hp). reflexivity.
    + apply assoc_a_none. rewrite map_app. cbn [map fst]. assumption.
  - destruct IH as (x & Hx). pose proof Hr as (R1 & R2 & R3 & R4).
    set (g := fun kq : atom * pser => do v <- deser E false (snd kq) XNone; Ok (fst kq, v)).
    assert (TG : forall kq, In kq (b ++ a) -> exists r, g kq = Ok r).
    { intros kq Hi. destruct (Hq kq Hi) as (v & Hv). unfold g. rewrite Hv. eexists; reflexivity. }
    destruct (map_res_total g b) as (bs & Hb); [intros; apply TG; apply in_or_app; left; assumption|].
    destruct (map_res_total g a) as (as' & Ha); [intros; apply TG; apply in_or_app; right; assumption|].
    pose proof (forall2_fst (fun q => deser E false q XNone) _ _ Hb) as Fb.
    pose proof (forall2_fst (fun q => deser E false q XNone) _ _ Ha) as Fa.
    set (h := fun kv : atom * val => do k <- str_key (fst kv); Ok (k, snd kv)).
    assert (TH : forall kv, In kv (bs ++ as') -> exists r, h kv = Ok r).
    { intros [n v] Hi. destruct (Hkeys n) as (gf & _ & _ & ->).
      - apply in_app_or in Hi. apply in_or_app. rewrite <- Fb, <- Fa. destruct Hi as [Hi|Hi]; apply (in_map fst) in Hi; [left; exact Hi|right; right; exact Hi].
      - eexists; reflexivity. }
    destruct (map_res_total h bs) as (bn & Hbn); [intros; apply TH; apply in_or_app; left; assumption|].
    destruct (map_res_total h as') as (an & Han); [intros; apply TH; apply in_or_app; right; assumption|].
    pose proof (str_keys_spec _ _ Hbn) as Sb. pose proof (str_keys_spec _ _ Han) as Sa.
    set (args := fun v => bn ++ (k, v) :: an).
    assert (Keys : forall n, In n (map fst bn ++ k :: map fst an) <-> In (AStr n) (map fst b ++ AStr k :: map fst a)).
    { intro n. rewrite <- Fb, <- Fa, Sb, Sa, !map_map. cbn [fst].
      assert (M : forall l : list (str * val), In (AStr n) (map (fun x => AStr (fst x)) l) <-> In n (map fst l)).
      { intro l. rewrite !in_map_iff. split; intros (z & Hz & Hi); exists z; split; congruence. }
      rewrite !in_app_iff. cbn [In]. rewrite !M. split; (intros [G|[G|G]]; [left; assumption|right; left; congruence|right; right; assumption]). }
    apply in_split in Hf as (f1 & f2 & ->). pose proof (NoDup_map_split _ _ _ _ Hnd) as Hne.
    assert (Ext : forall fl v v', incl fl (f1 ++ f2) -> build fl (args v) = build fl (args v')).
    { intros fl v v' Hi. apply build_ext. intros gf Hg. unfold args. apply assoc_app_other. subst k. apply Hne, Hi, Hg. }
    assert (Tot : forall fl v, incl fl (f1 ++ f2) -> exists r, build fl (args v) = Ok r).
    { intros fl v Hi. apply build_total. intros gf Hg G1 G2. unfold args. rewrite map_app. cbn [map fst]. apply Keys, Hreq; try assumption.
      apply Hi in Hg. apply in_app_or in Hg. apply in_or_app. destruct Hg; [left; assumption|right; right; assumption]. }
    destruct (Tot f1 (VAtom ANone)) as (r1 & H1); [intros z Hz; apply in_or_app; left; assumption|].
    destruct (Tot f2 (VAtom ANone)) as (r2 & H2); [intros z Hz; apply in_or_app; right; assumption|].
    exists (XInObj c r1 k x r2). intros p v Hp.
    change (pfill (YInDict [(AStr SER_TYPE, PAtom (AStr t))] (AStr SER_CONTENT) (YInDict b (AStr k) y a) []) p)
      with (typed t (PDict (b ++ (AStr k, pfill y p) :: a))).
    rewrite deser_typed, (str2type_user E t c), deser_obj_eq by assumption. unfold de_object. rewrite R2, Hk.
    unfold dkids. rewrite map_res_map. cbn [fst snd]. fold (deser E false).
    change (fun x0 : atom * pser => do v0 <- fst (deser_z E false (snd x0)) XNone; Ok (fst x0, v0)) with g.
    rewrite (map_res_mid_ok g b _ a bs (AStr k, fill x v) as'); auto.
    2:{ unfold g. cbn [fst snd]. rewrite (Hx _ _ Hp). reflexivity. }
    cbn [bind]. fold h. rewrite (map_res_mid_ok h bs _ as' bn (k, fill x v) an) by auto. cbn [bind]. fold (args (fill x v)).
    unfold construct. replace (forallb _ _) with true.
    2:{ symmetry. apply forallb_forall. intros [n w] Hi. cbn [fst]. apply member_in.
        assert (In (AStr n) (map fst b ++ AStr k :: map fst a)) as Hn.
        { apply Keys. apply (in_map fst) in Hi. unfold args in Hi. rewrite map_app in Hi. exact Hi. }
        destruct (Hkeys _ Hn) as (gf & G1 & G2 & G3). inversion G3; subst. unfold init_names. apply in_map. apply filter_In; auto. }
    rewrite build_app. cbn [build]. rewrite (Ext f2 _ (VAtom ANone)), H2 by (intros z Hz; apply in_or_app; right; assumption). cbn [bind].
    rewrite Hfi. replace (assoc (f_name f) (args (fill x v))) with (Some (fill x v)).
    2:{ unfold args. subst k. rewrite assoc_app_notin.
        - cbn [assoc]. destruct (str_eq_dec (f_name f) (f_name f)); congruence.
        - intro Hi. apply Hkb. rewrite <- Fb, Sb, map_map. cbn [fst]. apply in_map_iff in Hi as (z & Hz & Hi). apply in_map_iff. exists z; split; congruence. }
    cbn [bind]. rewrite (Ext f1 _ (VAtom ANone)), H1 by (intros z Hz; apply in_or_app; left; assumption). cbn [bind call_de fill].
    rewrite Hfn. apply check_valid. intros; discriminate.
Qed.

(** * Content without type *)
Lemma plain_content E v : plain E v -> exists s, (forall V, ser E V true v = Ok s) /\ json_ready s /\
  forall V, deser E V s (type_of v) = Ok (untuple v).
Proof.
  intro H. destruct H as [a|l Hl|l Hl|d Hk Hn Hv|c t fds fs Hr Hk Hi Hp|n i Hn Hi|c t ms m Hr Hk Hm Hd].
  - exists (PAtom a). split; [reflexivity|]. split; [constructor|]. intro V. cbn [type_of untuple].
    destruct (atom_eq_dec a ANone) as [->|N]; [reflexivity|]. rewrite deser_eq by congruence. cbn [inner_expected]. change (atom_type a) with (aty_of a). rewrite de_atomic_same. reflexivity.
  - destruct (plain_coded E (VList l)) as (p & P1 & P2 & P3 & _); [constructor; assumption|]. exists p.
    split; [intro V; rewrite <- (P1 V); reflexivity|]. split; [assumption|]. intro V. rewrite <- (P3 V). specialize (P1 V). cbn [ser] in P1.
    destruct (map_res _ l); cbn [bind] in P1; [|discriminate]. inversion P1; subst. cbn [type_of]. rewrite !deser_eq by congruence. reflexivity.
  - destruct (plain_coded E (VTuple l)) as (p & P1 & P2 & P3 & _); [constructor; assumption|]. exists p.
    split; [intro V; rewrite <- (P1 V); reflexivity|]. split; [assumption|]. intro V. rewrite <- (P3 V). specialize (P1 V). cbn [ser] in P1.
    destruct (map_res _ l); cbn [bind] in P1; [|discriminate]. inversion P1; subst. cbn [type_of]. rewrite !deser_eq by congruence. reflexivity.
  - destruct (plain_coded E (VDict d)) as (p & P1 & P2 & P3 & _); [constructor; assumption|]. exists p.
    split; [intro V; rewrite <- (P1 V); reflexivity|]. split; [assumption|]. intro V. rewrite <- (P3 V). specialize (P1 V). cbn [ser] in P1.
    destruct (map_res _ d) as [ps|] eqn:Em; cbn [bind] in P1; [|discriminate]. inversion P1; subst. cbn [type_of]. rewrite !deser_eq by congruence.
    cbn [inner_expected inner_none]. replace (assoc_a (AStr SER_TYPE) ps) with (@None pser); [reflexivity|].
    symmetry. apply assoc_a_none. rewrite (forall2_fst (ser E V false) d ps Em). intro Hi. apply in_map_iff in Hi as ([k x] & He & Hi). cbn [fst] in He; subst.
    destruct (Hk _ _ Hi) as (s & Hs & Ns). inversion Hs; congruence.
  - destruct (enc_fields_exist E fds fs) as (ps & Hps).
    { apply instance_weak; assumption. }
    { intros f k x Hin Hs. apply plain_coded. eapply Hp; eassumption. }
    destruct (coded_content E c t fds fs ps) as (C1 & C1' & C2); try assumption.
    exists (PDict ps). split; [intro V; apply (C1 V true)|]. split; [eapply enc_fields_ready; [apply Hi|eassumption]|].
    intro V. rewrite deser_eq by congruence. cbn [type_of inner_expected]. rewrite C2. apply check_valid; intros; discriminate.
  - destruct (inst_name_some _ _ _ Hi) as (m & Hm). exists (PAtom (AStr m)). split; [intro V; cbn [ser]; rewrite Hm; reflexivity|].
    split; [constructor|]. intro V. rewrite deser_eq by congruence. cbn [type_of inner_expected]. rewrite deser_obj_eq. unfold de_object, call_de.
    rewrite (assoc_in_nodup m i) by (try assumption; apply inst_name_in; assumption). reflexivity.
  - pose proof Hr as (R1 & R2 & R3 & R4). exists (PAtom (AStr (c_name (e_class E c) ++ $"." ++ m))).
    split; [intro V; cbn [ser]; rewrite (obj_type_registered E c t) by assumption; rewrite R2, Hk; reflexivity|].
    split; [constructor|]. intro V. rewrite deser_eq by congruence. cbn [type_of inner_expected].
    rewrite deser_obj_eq. unfold de_object. rewrite R2, Hk.
    change ($"." ++ m) with ("."%char :: m). rewrite last_name_app by assumption.
    rewrite (proj2 (member_in m ms)) by assumption. reflexivity.
Qed.

(** * Instances: histories *)
Lemma registry_eq h : fold_left register_instance h [] = json_object h.
Proof. reflexivity. Qed.

Lemma inst_name_first l i n : inst_name l i = Some n ->
  exists b a, l = b ++ (n, i) :: a /\ forall m, ~ In (m, i) b.
Proof.
  induction l as [|[m j] l IH]; [discriminate|]. cbn [inst_name]. destruct (Nat.eqb_spec i j) as [->|N]; intro H.
  - inversion H; subst. exists [], l. split; [reflexivity|intros m []].
  - destruct (IH H) as (b & a & -> & Hb). exists ((m, j) :: b), a. split; [reflexivity|]. intros k [Hk|Hk]; [inversion Hk; congruence|eapply Hb; eassumption].
Qed.

Lemma keys_order (h acc : list (str * nat)) b n a :
  map fst (fold_left register_instance h acc) = b ++ n :: a -> NoDup (map fst acc) ->
  forall m, In m a ->
    (exists b' a', map fst acc = b' ++ n :: a') \/ exists hb i ha, h = hb ++ (n, i) :: ha /\ ~ In m (map fst hb).
Proof.
  revert acc; induction h as [|[k v] h IH]; intros acc He Hn m Hm.
  - left. exists b, a. exact He.
  - cbn [fold_left] in He. change (register_instance acc (k, v)) with (assoc_set k v acc) in He.
    pose proof (assoc_set_keys k v acc Hn) as (K1 & _).
    destruct (in_dec str_eq_dec n (map fst acc)) as [Hin|Hin].
    + left. apply in_split in Hin as (b' & a' & E'). exists b', a'. exact E'.
    + destruct (IH _ He K1 m Hm) as [(b' & a' & E')|(hb & i & ha & -> & Hh)].
      * rewrite assoc_set_order in E'. destruct (in_dec str_eq_dec k (map fst acc)).
        -- exfalso. apply Hin. rewrite E'. apply in_or_app; right; left; reflexivity.
        -- assert (n = k) as ->.
           { assert (In n (map fst acc ++ [k])) as Hx by (rewrite E'; apply in_or_app; right; left; reflexivity).
             apply in_app_or in Hx as [Hx|[Hx|[]]]; [contradiction|congruence]. }
           right. exists [], v, h. split; [reflexivity|intros []].
      * destruct (str_eq_dec k m) as [->|Nk].
        2:{ right. exists ((k, v) :: hb), i, ha. split; [reflexivity|]. cbn [map fst]. intros [?|?]; contradiction. }
        exfalso.
        (* m was known before n, so it stands before n *)
        assert (Hm1 : In m (map fst (assoc_set m v acc))) by (apply (assoc_set_keys m v acc Hn); left; reflexivity).
        assert (Hn1 : ~ In n (map fst (assoc_set m v acc)) \/ n = m).
        { destruct (str_eq_dec n m); [right; assumption|left]. intro Hx. apply (assoc_set_keys m v acc Hn) in Hx as [?|?]; contradiction. }
        assert (Pre : forall h acc, NoDup (map fst acc) -> exists r, map fst (fold_left register_instance h acc) = map fst acc ++ r /\ NoDup (map fst acc ++ r)).
        { clear. induction h as [|[k v] h IH]; intros acc Hn; cbn [fold_left].
          - exists []. rewrite app_nil_r. auto.
          - destruct (assoc_set_keys k v acc Hn) as (K1 & _). destruct (IH (register_instance acc (k, v)) K1) as (r & Hr & Hd).
            change (register_instance acc (k, v)) with (assoc_set k v acc) in *. rewrite assoc_set_order in Hr, Hd.
            destruct (in_dec str_eq_dec k (map fst acc)); [exists r; auto|]. exists (k :: r). rewrite <- app_assoc in Hr, Hd. auto. }
        destruct (Pre (hb ++ (n, i) :: ha) (assoc_set m v acc) K1) as (r & Hr & Hd).
        rewrite Hr in He. rewrite He in Hd. 
        destruct Hn1 as [Hn1| ->].
        -- apply in_split in Hm1 as (m1 & m2 & Em). rewrite Em in He. 
           assert (Hcase : In m b).
           { rewrite <- app_assoc in He. cbn [app] in He.
             assert (L : forall (m1 b m2' a : list str), m1 ++ m :: m2' = b ++ n :: a -> n <> m -> ~ In n m1 -> In m b).
             { clear. induction m1 as [|x m1 IHm]; intros b m2' a He Nn Hi.
               - destruct b; cbn [app] in He; inversion He; subst; [congruence|left; reflexivity].
               - destruct b as [|y b]; cbn [app] in He; inversion He; subst; [exfalso; apply Hi; left; reflexivity|].
                 right. eapply IHm; [eassumption|assumption|intro; apply Hi; right; assumption]. }
             eapply L; [exact He| |].
             - intros ->. apply Hn1. rewrite Em. apply in_or_app; right; left; reflexivity.
             - intro; apply Hn1; rewrite Em; apply in_or_app; left; assumption. }
           apply in_split in Hcase as (c1 & c2 & ->). rewrite <- app_assoc in Hd. cbn [app] in Hd. apply NoDup_remove_2 in Hd. apply Hd.
           apply in_or_app; right. apply in_or_app; right. right; assumption.
        -- apply NoDup_remove_2 in Hd. apply Hd. apply in_or_app; right; assumption.
Qed.

(** * Instances of dataclasses and their stored form *)
Lemma through_json_typed fr t q : through_json fr (typed t q) = typed t (through_json fr q).
Proof. reflexivity. Qed.
Lemma through_json_dict fr d : exists d', through_json fr (PDict d) = PDict d' /\
  forall k, In k (map (fun kv => json_key fr (fst kv)) d) -> In (AStr k) (map fst d').
Proof.
  eexists. split; [reflexivity|]. intros k Hk. rewrite map_map. cbn [fst].
  rewrite <- (map_map fst AStr). apply in_map. apply json_object_spec. rewrite map_map. exact Hk.
Qed.
Lemma ser_fields_key fds vs d f : ser_fields fds vs = Ok d -> In f fds -> f_noser f = false -> exists q, In (AStr (f_name f), q) d.
Proof.
  revert d. induction fds as [|g r IH]; intros d H Hf Hn; [destruct Hf|]. cbn in H. destruct Hf as [->|Hf].
  - rewrite Hn in H. destruct (assoc (f_name f) vs) as [s|]; [|discriminate]. destruct s as [p|]; [|discriminate]. cbn in H.
    destruct (ser_fields r vs); [|discriminate]. inversion H. eexists; left; reflexivity.
  - destruct (f_noser g); [eapply IH; eassumption|]. destruct (assoc (f_name g) vs) as [s|]; [|discriminate]. destruct s as [p|]; [|discriminate]. cbn in H.
    destruct (ser_fields r vs) as [d'|]; [|discriminate]. inversion H. destruct (IH d' eq_refl Hf Hn) as (q & Hq). exists q; right; exact Hq.
Qed.
Lemma names_inj (fds : list field) f g : NoDup (map f_name fds) -> In g fds -> In f fds -> f_name g = f_name f -> g = f.
Proof.
  induction fds as [|h r IH]; intros N Hg Hf Hn; [destruct Hg|]. cbn in N. inversion N as [|? ? N1 N2]; subst.
  destruct Hg as [->|Hg], Hf as [->|Hf]; [reflexivity| | |apply IH; assumption].
  - exfalso; apply N1. rewrite Hn. apply in_map; assumption.
  - exfalso; apply N1. rewrite <- Hn. apply in_map; assumption.
Qed.
Definition exc_unser (i : invalid) : Prop := exists t n tr, i = IExcUnser t n tr.
Lemma ser_data_gen E V c t fds fs s : obj_type E c = Some t -> c_custom (e_class E c) = None -> c_kind (e_class E c) = KData fds ->
  ser E V false (VObj c fs) = Ok s ->
  (exists d, ser_fields fds (map (fun kv => (fst kv, ser E V false (snd kv))) fs) = Ok d /\ s = typed t (PDict d)) \/
  (exists i, s = typed (fst (ser_invalid i)) (snd (ser_invalid i)) /\ exc_unser i).
Proof.
  intros Ht Hc Hk H. cbn [ser] in H. rewrite Ht in H. unfold obj_content in H. rewrite Hc, Hk in H.
  destruct (ser_fields _ _) as [d|e].
  - left. exists d. split; [reflexivity|]. inversion H; reflexivity.
  - cbn [bind] in H. unfold call_ser in H. destruct (is_ser_error e); [discriminate|]. unfold finish, process_invalid in H. cbn [bind] in H.
    destruct V; [discriminate|]. inversion H. right.
    exists (IExcUnser (Some (c_name (e_class E c))) ($"Error during serialization:") (e_trace E e)).
    split; [reflexivity|]. eexists; eexists; eexists; reflexivity.
Qed.
Lemma ser_data E V c t fds fs s : registered E c t -> c_kind (e_class E c) = KData fds ->
  ser E V false (VObj c fs) = Ok s ->
  (exists d, ser_fields fds (map (fun kv => (fst kv, ser E V false (snd kv))) fs) = Ok d /\ s = typed t (PDict d)) \/
  (exists i, s = typed (fst (ser_invalid i)) (snd (ser_invalid i)) /\ exc_unser i).
Proof. intros R; apply ser_data_gen; [apply obj_type_registered; assumption|apply R]. Qed.
Lemma unser_loads E fr i : tame E -> exc_unser i ->
  exists j, deser E false (through_json fr (typed (fst (ser_invalid i)) (snd (ser_invalid i)))) XNone = Ok (VInvalid j).
Proof.
  intros T (t & n & tr & ->). cbn [ser_invalid fst snd]. rewrite through_json_typed, deser_typed.
  change (str2type E n_exc_unser) with (Some CExcUnser). cbv iota beta. rewrite deser_obj_eq.
  destruct (through_json_dict fr (ser_base t n ++ [(key "trace", tr)])) as (d & -> & _). unfold de_object.
  destruct (e_parse_trace E _) as [p|e] eqn:Ee; cbn [bind].
  - eexists; reflexivity.
  - unfold call_de. assert (He : is_ser_error e = false) by exact (proj1 (proj2 (proj2 T)) _ _ Ee). rewrite He. eexists; reflexivity.
Qed.
