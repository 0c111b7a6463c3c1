(** Lemmas about failing serialization and deserialization. *)
From Coq Require Import List Ascii String Bool Arith ZArith Lia.
From Verif Require Import Base PosixModel FsModel PathModel SerialModel SerialSpec FsProof SerialProof.
Import ListNotations.

(** * Kinds of classes *)
Lemma reserved_dec (t : str) : {In t reserved_names} + {~ In t reserved_names}.
Proof. apply in_dec, str_eq_dec. Qed.

Lemma is_type_str_iff E t : is_type_str E (Some t) = true <-> (e_types E t <> None \/ In t reserved_names).
Proof.
  cbn [is_type_str]. destruct (reserved_dec t) as [H|H].
  - split; [intros _; right; assumption|intros _].
    unfold str2type. destruct H as [<-|[<-|[<-|[<-|[<-|[]]]]]]; reflexivity.
  - destruct (e_types E t) as [c|] eqn:Et.
    + rewrite (str2type_user E t c) by assumption. split; [intros _; left; congruence|reflexivity].
    + rewrite (str2type_none E t) by assumption. split; [discriminate|]. intros [H'|H']; [congruence|contradiction].
Qed.

Lemma known_dec E c : {exists t, obj_type E c = Some t /\ known E c} + {obj_type E c = None /\ ~ known E c}.
Proof.
  unfold obj_type, known. destruct (c_custom (e_class E c)) as [n|] eqn:Ec.
  - left. exists n. split; [reflexivity|left; congruence].
  - destruct (c_type (e_class E c)) as [t|] eqn:Et.
    + destruct (is_type_str E (Some t)) eqn:Ei.
      * left. exists t. split; [reflexivity|]. right. exists t. split; [reflexivity|]. apply is_type_str_iff; assumption.
      * right. split; [reflexivity|]. intros [H|(t' & Ht' & H)]; [congruence|].
        inversion Ht'; subst. apply is_type_str_iff in H. congruence.
    + right. split; [reflexivity|]. intros [H|(t' & Ht' & H)]; congruence.
Qed.

Lemma known_type E c : known E c -> exists t, obj_type E c = Some t.
Proof. intro H. destruct (known_dec E c) as [(t & Ht & _)|(_ & N)]; [exists t; assumption|contradiction]. Qed.

Lemma registered_known E c t : registered E c t -> known E c.
Proof. intros (H1 & H2 & H3 & H4). right. exists t. split; [assumption|left; congruence]. Qed.

(** * Reading [ser_fields] *)
Lemma ser_fields_ext fds s1 s2 :
  (forall f, In f fds -> f_noser f = false -> assoc (f_name f) s1 = assoc (f_name f) s2) ->
  ser_fields fds s1 = ser_fields fds s2.
Proof.
  induction fds as [|f fds IH]; intro H; [reflexivity|]. cbn [ser_fields].
  destruct (f_noser f) eqn:Ef; [apply IH; intros; apply H; [right; assumption|assumption]|].
  rewrite (H f) by (try left; auto). rewrite IH by (intros; apply H; [right; assumption|assumption]). reflexivity.
Qed.

Lemma ser_fields_app f1 f2 s :
  ser_fields (f1 ++ f2) s = (do a <- ser_fields f1 s; do b <- ser_fields f2 s; Ok (a ++ b)).
Proof.
  induction f1 as [|f f1 IH].
  - cbn [app ser_fields bind]. destruct (ser_fields f2 s); reflexivity.
  - cbn [app ser_fields]. destruct (f_noser f); [assumption|].
    destruct (assoc (f_name f) s) as [r|]; [|reflexivity]. destruct r; cbn [bind]; [|reflexivity].
    rewrite IH. destruct (ser_fields f1 s); cbn [bind]; [|reflexivity]. destruct (ser_fields f2 s); reflexivity.
Qed.

Lemma ser_fields_total fds s :
  (forall f, In f fds -> f_noser f = false -> exists p, assoc (f_name f) s = Some (Ok p)) ->
  exists ps, ser_fields fds s = Ok ps.
Proof.
  induction fds as [|f fds IH]; intro H; [exists []; reflexivity|]. cbn [ser_fields].
  destruct IH as (ps & Hps); [intros; apply H; [right; assumption|assumption]|].
  destruct (f_noser f) eqn:Ef; [exists ps; assumption|].
  destruct (H f) as (p & Hp); [left; reflexivity|assumption|]. rewrite Hp. cbn [bind]. rewrite Hps. eexists; reflexivity.
Qed.

Lemma ser_fields_missing fds s f : In f fds -> f_noser f = false -> assoc (f_name f) s = None ->
  (forall k r e, In (k, r) s -> r = Exn e -> is_ser_error e = false) ->
  exists e, ser_fields fds s = Exn e /\ is_ser_error e = false.
Proof.
  induction fds as [|g fds IH]; intros Hi Hn Ha Hs; [destruct Hi|]. cbn [ser_fields].
  destruct Hi as [->|Hi].
  - rewrite Hn, Ha. exists AttributeError; split; reflexivity.
  - destruct (IH Hi Hn Ha Hs) as (e & He & Hee). destruct (f_noser g); [exists e; auto|].
    destruct (assoc (f_name g) s) as [r|] eqn:Er; [|exists AttributeError; split; reflexivity].
    destruct r as [p|e']; cbn [bind].
    + rewrite He. exists e; auto.
    + exists e'; split; [reflexivity|]. eapply Hs; [|reflexivity]. eapply assoc_in; eassumption.
Qed.

(** * Serialization does not raise *)
Lemma call_ser_tame E n r : (forall e, r = Exn e -> is_ser_error e = false) -> exists x, call_ser E n r = Ok x.
Proof.
  intro H. unfold call_ser. destruct r as [x|e]; [exists x; reflexivity|]. rewrite (H e eq_refl). eexists; reflexivity.
Qed.
Lemma finish_false t r x : r = Ok x -> exists y, finish false t r = Ok y.
Proof. intros ->. unfold finish. cbn [bind]. destruct x; eexists; reflexivity. Qed.

Lemma obj_content_tame E c fs sub : tame E -> (forall k r, In (k, r) sub -> exists p, r = Ok p) ->
  forall e, obj_content E c fs sub = Exn e -> is_ser_error e = false.
Proof.
  intros (T & _) Hs e H. unfold obj_content in H.
  destruct (c_custom (e_class E c)); [eapply T; eassumption|].
  destruct (c_kind (e_class E c)) as [fds|ms| |].
  - destruct (ser_fields fds sub) as [d|e'] eqn:Ef; cbn [bind] in H; [discriminate|]. inversion H; subst.
    clear H. induction fds as [|f fds IH]; [discriminate|]. cbn [ser_fields] in Ef.
    destruct (f_noser f); [apply IH; assumption|].
    destruct (assoc (f_name f) sub) as [r|] eqn:Er; [|inversion Ef; reflexivity].
    apply assoc_in in Er. destruct (Hs _ _ Er) as (p & ->). cbn [bind] in Ef.
    destruct (ser_fields fds sub); cbn [bind] in Ef; [discriminate|]. apply IH; assumption.
  - inversion H; reflexivity.
  - eapply T; eassumption.
  - inversion H; reflexivity.
Qed.

Lemma ser_total E co v : tame E -> exists p, ser E false co v = Ok p.
Proof.
  intro T. revert co. induction v as [a|l IH|l IH|d IH|c fs IH|c m|i|i] using val_ind'; intro co; cbn [ser].
  - eexists; reflexivity.
  - destruct (map_res_rel (ser E false false) (fun _ _ => True) l) as (ps & Hps & _).
    { intros x Hx. destruct (IH x Hx false) as (p & Hp). exists p; auto. }
    rewrite Hps. eexists; reflexivity.
  - destruct (map_res_rel (ser E false false) (fun _ _ => True) l) as (ps & Hps & _).
    { intros x Hx. destruct (IH x Hx false) as (p & Hp). exists p; auto. }
    rewrite Hps. eexists; reflexivity.
  - destruct (map_res_rel (fun kv => do p <- ser E false false (snd kv); Ok (fst kv, p)) (fun _ _ => True) d) as (ps & Hps & _).
    { intros [k x] Hx. destruct (IH k x Hx false) as (p & Hp). exists (k, p); cbn [fst snd]; rewrite Hp; auto. }
    rewrite Hps. eexists; reflexivity.
  - destruct (obj_type E c) as [t|].
    + destruct (call_ser_tame E (c_name (e_class E c)) (obj_content E c fs (map (fun kv => (fst kv, ser E false false (snd kv))) fs))) as (x & Hx).
      { apply obj_content_tame; [assumption|]. intros k r Hi. apply in_map_iff in Hi as ([k' y] & He & Hi). inversion He; subst. cbn [snd]. eapply IH; eassumption. }
      destruct (finish_false t _ _ Hx) as (y & Hy). rewrite Hy. eexists; reflexivity.
    + eexists; reflexivity.
  - destruct (obj_type E c) as [t|].
    + match goal with |- context [call_ser E ?n ?r] => destruct (call_ser_tame E n r) as (x & Hx) end.
      { intros e. destruct T as (T & _). destruct (c_custom (e_class E c)), (c_kind (e_class E c)); try discriminate; apply T. }
      destruct (finish_false t _ _ Hx) as (y & Hy). rewrite Hy. eexists; reflexivity.
    + eexists; reflexivity.
  - destruct (inst_name (e_insts E) i); eexists; reflexivity.
  - eexists; reflexivity.
Qed.

(** * The marker stands at the place of the object *)
Lemma finish_marker E n e t co :
  is_ser_error e = false ->
  exists i, (do x <- finish false t (call_ser E n (Exn e)); Ok (emit co x)) = Ok (emit co (ser_invalid i)).
Proof. intro H. unfold call_ser. rewrite H. eexists. reflexivity. Qed.

Lemma ser_invalid_name i : In (fst (ser_invalid i)) marker_names.
Proof. destruct i; cbn; tauto. Qed.

Lemma inst_name_none l i : (forall n, ~ In (n, i) l) -> inst_name l i = None.
Proof. intro H. destruct (inst_name l i) as [n|] eqn:En; [|reflexivity]. apply inst_name_in in En. exfalso; eapply H; eassumption. Qed.

Definition makes_marker (E : env) (v : val) : Prop :=
  forall co, exists i, ser E false co v = Ok (emit co (ser_invalid i)).

Lemma by_user_method E c fs sub : by_user E c -> obj_content E c fs sub = e_ser E c fs.
Proof.
  unfold obj_content. intros [H|(_ & H)].
  - destruct (c_custom (e_class E c)); [reflexivity|congruence].
  - rewrite H. destruct (c_custom (e_class E c)); reflexivity.
Qed.
Lemma by_user_known E c : by_user E c -> known E c.
Proof. intros [H|(H & _)]; [left; assumption|assumption]. Qed.

Lemma enum_method E c m : ~ by_name E c -> known E c ->
  (match c_custom (e_class E c), c_kind (e_class E c) with
   | None, KEnum _ => Ok (inl (PAtom (AStr (c_name (e_class E c) ++ $"." ++ m))))
   | _, _ => e_ser E c [($"name", VAtom (AStr m))]
   end) = e_ser E c [($"name", VAtom (AStr m))].
Proof.
  intros H K. destruct (c_custom (e_class E c)) eqn:Ec; [reflexivity|].
  destruct (c_kind (e_class E c)) eqn:Ek; try reflexivity.
  exfalso. apply H. repeat split; [assumption|assumption|eexists; eassumption].
Qed.

Lemma unser_marker E v : tame E -> unserializable_obj E v -> makes_marker E v.
Proof.
  intros T H co. destruct H as [c fs H|c m H|i H|c fs e H He Hs|c m e K H He Hs|c fs H|c fds fs f H Hf Hn Ha]; cbn [ser].
  - destruct (known_dec E c) as [(t & _ & K)|(Ht & _)]; [contradiction|]. rewrite Ht. eexists; reflexivity.
  - destruct (known_dec E c) as [(t & _ & K)|(Ht & _)]; [contradiction|]. rewrite Ht. eexists; reflexivity.
  - rewrite inst_name_none by assumption. eexists; reflexivity.
  - destruct (known_type E c (by_user_known _ _ H)) as (t & Ht). rewrite Ht, (by_user_method E c) by assumption. rewrite He.
    apply finish_marker; assumption.
  - destruct (known_type E c K) as (t & Ht). rewrite Ht, enum_method, He by assumption. apply finish_marker; assumption.
  - destruct H as (K & Hc & Hk). destruct (known_type E c K) as (t & Ht). rewrite Ht. unfold obj_content. rewrite Hc.
    destruct Hk as [-> | (ms & ->)]; apply finish_marker; reflexivity.
  - destruct H as (K & Hc & Hk). destruct (known_type E c K) as (t & Ht). rewrite Ht. unfold obj_content. rewrite Hc, Hk.
    destruct (ser_fields_missing fds (map (fun kv => (fst kv, ser E false false (snd kv))) fs) f) as (e & He & Hee); try assumption.
    { rewrite assoc_map. apply assoc_none_notin in Ha. rewrite Ha. reflexivity. }
    { intros k r e Hi Hr. apply in_map_iff in Hi as ([k' y] & Hy & Hi). inversion Hy; subst.
      destruct (ser_total E false y T) as (p & Hp). cbn [snd] in H1. congruence. }
    rewrite He. cbn [bind]. apply finish_marker; assumption.
Qed.

(** * Positions *)
Lemma map_res_total {A B} (f : A -> res B) l : (forall x, In x l -> exists y, f x = Ok y) -> exists ys, map_res f l = Ok ys.
Proof.
  intro H. destruct (map_res_rel f (fun _ _ => True) l) as (ys & Hys & _).
  { intros x Hx. destruct (H x Hx) as (y & Hy). exists y; auto. }
  exists ys; assumption.
Qed.

Lemma assoc_app_notin {A} k (l r : list (str * A)) : ~ In k (map fst l) -> assoc k (l ++ r) = assoc k r.
Proof.
  induction l as [|[x v] l IH]; intro H; [reflexivity|]. cbn [app assoc].
  destruct (str_eq_dec x k) as [->|]; [exfalso; apply H; left; reflexivity|]. apply IH. intro; apply H; right; assumption.
Qed.
Lemma assoc_app_other {A} k k' (v v' : A) (l r : list (str * A)) : k <> k' ->
  assoc k (l ++ (k', v) :: r) = assoc k (l ++ (k', v') :: r).
Proof.
  intro H. induction l as [|[x w] l IH]; cbn [app assoc].
  - destruct (str_eq_dec k' k); [congruence|reflexivity].
  - destruct (str_eq_dec x k); [reflexivity|assumption].
Qed.
Lemma assoc_some_in {A} k (l : list (str * A)) : In k (map fst l) -> exists v, assoc k l = Some v.
Proof.
  intro H. destruct (assoc k l) eqn:Ea; [eexists; reflexivity|]. apply assoc_none_notin in Ea. contradiction.
Qed.

Lemma NoDup_map_split {A B} (f : A -> B) l1 x l2 : NoDup (map f (l1 ++ x :: l2)) ->
  forall y, In y (l1 ++ l2) -> f y <> f x.
Proof.
  intros H y Hy He. rewrite map_app in H. cbn [map] in H. apply NoDup_remove_2 in H. apply H.
  rewrite <- map_app, <- He. apply in_map; assumption.
Qed.

Lemma contained E x : tame E -> visited E x ->
  exists y, forall v, exists p, ser E false false v = Ok p /\ ser E false false (fill x v) = Ok (pfill y p).
Proof.
  intro T. assert (TT : forall v, exists p, ser E false false v = Ok p) by (intro; apply ser_total; assumption).
  induction x as [|b x IH a|b x IH a|b k x IH a|c b k x IH a]; intro H; cbn [visited] in H.
  - exists YHole. intro v. destruct (TT v) as (p & Hp). exists p; auto.
  - destruct (IH H) as (y & Hy).
    destruct (map_res_total (ser E false false) b) as (bs & Hb); [intros; apply TT|].
    destruct (map_res_total (ser E false false) a) as (as' & Ha); [intros; apply TT|].
    exists (YInList bs y as'). intro v. destruct (Hy v) as (p & Hp & Hf). exists p; split; [assumption|].
    cbn [fill ser pfill]. rewrite map_res_app, Hb. cbn [bind]. rewrite map_res_cons, Hf. cbn [bind]. rewrite Ha. reflexivity.
  - destruct (IH H) as (y & Hy).
    destruct (map_res_total (ser E false false) b) as (bs & Hb); [intros; apply TT|].
    destruct (map_res_total (ser E false false) a) as (as' & Ha); [intros; apply TT|].
    exists (YInList bs y as'). intro v. destruct (Hy v) as (p & Hp & Hf). exists p; split; [assumption|].
    cbn [fill ser pfill]. rewrite map_res_app, Hb. cbn [bind]. rewrite map_res_cons, Hf. cbn [bind]. rewrite Ha. reflexivity.
  - destruct (IH H) as (y & Hy).
    set (g := fun kv : atom * val => do p <- ser E false false (snd kv); Ok (fst kv, p)).
    assert (TG : forall kv, exists q, g kv = Ok q).
    { intros [k' v']. unfold g. cbn [fst snd]. destruct (TT v') as (p & ->). eexists; reflexivity. }
    destruct (map_res_total g b) as (bs & Hb); [intros; apply TG|].
    destruct (map_res_total g a) as (as' & Ha); [intros; apply TG|].
    exists (YInDict bs k y as'). intro v. destruct (Hy v) as (p & Hp & Hf). exists p; split; [assumption|].
    cbn [fill ser pfill]. fold g. rewrite map_res_app, Hb. cbn [bind]. rewrite map_res_cons. unfold g at 1. cbn [fst snd].
    rewrite Hf. cbn [bind]. rewrite Ha. reflexivity.
  - destruct H as (Hv & Hkb & fds & f & (K & Hc & Hk) & Hn & Hf & Hfk & Hfs & Hall).
    destruct (IH Hv) as (y & Hy). destruct (known_type E c K) as (t & Ht).
    apply in_split in Hf as (f1 & f2 & ->).
    pose proof (NoDup_map_split _ _ _ _ Hn) as Hne.
    set (sub := fun r => map (fun kv => (fst kv, ser E false false (snd kv))) b ++ (k, r) :: map (fun kv => (fst kv, ser E false false (snd kv))) a).
    assert (Hsub : forall r r' fl, incl fl (f1 ++ f2) -> ser_fields fl (sub r) = ser_fields fl (sub r')).
    { intros r r' fl Hi. apply ser_fields_ext. intros g Hg _. unfold sub. apply assoc_app_other. subst k.
      intro He. apply (Hne g); [apply Hi; assumption|assumption]. }
    assert (Htot : forall fl, incl fl (f1 ++ f2) -> exists ps, ser_fields fl (sub (Ok (PAtom ANone))) = Ok ps).
    { intros fl Hi. apply ser_fields_total. intros g Hg Hgs.
      assert (Hin : In (f_name g) (map fst (sub (Ok (PAtom ANone))))).
      { unfold sub. rewrite map_app. cbn [map fst]. rewrite !map_map. cbn [fst].
        apply Hall; [|assumption]. apply Hi in Hg. apply in_app_or in Hg. apply in_or_app. destruct Hg; [left; assumption|right; right; assumption]. }
      destruct (assoc_some_in _ _ Hin) as (r & Hr). pose proof (assoc_in _ _ _ Hr) as Hir.
      unfold sub in Hir. apply in_app_or in Hir.
      assert (exists p, r = Ok p) as (p & ->); [|exists p; assumption].
      destruct Hir as [Hir|[Hir|Hir]].
      - apply in_map_iff in Hir as ([k0 v0] & He & _). inversion He; subst. apply TT.
      - inversion Hir; eexists; reflexivity.
      - apply in_map_iff in Hir as ([k0 v0] & He & _). inversion He; subst. apply TT. }
    destruct (Htot f1) as (p1 & Hp1); [intros z Hz; apply in_or_app; left; assumption|].
    destruct (Htot f2) as (p2 & Hp2); [intros z Hz; apply in_or_app; right; assumption|].
    exists (YInDict [(AStr SER_TYPE, PAtom (AStr t))] (AStr SER_CONTENT) (YInDict p1 (AStr k) y p2) []).
    intro v. destruct (Hy v) as (p & Hp & Hfill). exists p; split; [assumption|].
    cbn [fill ser]. rewrite Ht. unfold obj_content. rewrite Hc, Hk.
    rewrite map_app. cbn [map fst snd]. fold (sub (ser E false false (fill x v))).
    rewrite ser_fields_app.
    rewrite (Hsub _ (Ok (PAtom ANone)) f1) by (intros z Hz; apply in_or_app; left; assumption). rewrite Hp1. cbn [bind ser_fields].
    rewrite Hfs.
    assert (Has : assoc (f_name f) (sub (ser E false false (fill x v))) = Some (Ok (pfill y p))).
    { unfold sub. rewrite Hfk, assoc_app_notin.
      - cbn [assoc]. destruct (str_eq_dec k k); [congruence|congruence].
      - rewrite map_map. cbn [fst]. assumption. }
    rewrite Has. cbn [bind].
    rewrite (Hsub _ (Ok (PAtom ANone)) f2) by (intros z Hz; apply in_or_app; right; assumption). rewrite Hp2.
    cbn [bind]. rewrite Hfk. reflexivity.
Qed.

(** * Validation of serialization *)
Lemma finish_V V t r : finish V t r = match r with Ok (inl p) => Ok (t, p) | Ok (inr i) => if V then Exn ValidationError else Ok (ser_invalid i) | Exn e => Exn e end.
Proof. destruct r as [[p|i]|e]; cbn [finish bind]; [reflexivity| |reflexivity]. unfold finish, process_invalid; cbn [bind]. destruct V; reflexivity. Qed.

(** With and without validation: same result, or an object that cannot be serialized was met. *)
Definition vrel (H : Prop) (r1 r0 : res pser) : Prop :=
  (~ H /\ r1 = r0) \/ (H /\ r1 = Exn ValidationError).

Lemma vrel_map {A} (g1 g0 : A -> res pser) (Hp : A -> Prop) (l : list A) :
  (forall x, In x l -> exists p, g0 x = Ok p) ->
  (forall x, In x l -> vrel (Hp x) (g1 x) (g0 x)) ->
  (~ (exists x, In x l /\ Hp x) /\ map_res g1 l = map_res g0 l) \/ ((exists x, In x l /\ Hp x) /\ map_res g1 l = Exn ValidationError).
Proof.
  induction l as [|x l IH]; intros Ht H.
  - left. split; [intros (x & [] & _)|reflexivity].
  - destruct (H x) as [(N & Ex)|(Y & Ex)]; [left; reflexivity| |].
    + destruct IH as [(Nl & El)|(Yl & El)]; [intros; apply Ht; right; assumption|intros; apply H; right; assumption| |].
      * left. split; [|rewrite !map_res_cons, Ex, El; reflexivity].
        intros (y & [->|Hy] & Py); [contradiction|apply Nl; exists y; auto].
      * right. split; [destruct Yl as (y & Hy & Py); exists y; split; [right; assumption|assumption]|].
        rewrite map_res_cons, Ex. destruct (Ht x) as (p & ->); [left; reflexivity|]. cbn [bind]. rewrite El. reflexivity.
    + right. split; [exists x; split; [left; reflexivity|assumption]|]. rewrite map_res_cons, Ex. reflexivity.
Qed.

Definition field_bad (E : env) (fs : list (str * val)) (f : field) : Prop :=
  f_noser f = false /\ (~ In (f_name f) (map fst fs) \/ exists x, assoc (f_name f) fs = Some x /\ hits E x).

Lemma ser_fields_vrel E fds fs :
  (forall x, exists p, ser E false false x = Ok p) ->
  (forall k x, In (k, x) fs -> vrel (hits E x) (ser E true false x) (ser E false false x)) ->
  let s V := map (fun kv => (fst kv, ser E V false (snd kv))) fs in
  ((forall f, In f fds -> ~ field_bad E fs f) /\ ser_fields fds (s true) = ser_fields fds (s false) /\ exists ps, ser_fields fds (s false) = Ok ps) \/
  ((exists f, In f fds /\ field_bad E fs f) /\ exists e, ser_fields fds (s true) = Exn e /\ (e = ValidationError \/ e = AttributeError)).
Proof.
  intros T H s. induction fds as [|f fds IH].
  - left. split; [intros f []|]. split; [reflexivity|exists []; reflexivity].
  - cbn [ser_fields]. destruct (f_noser f) eqn:Ef.
    + destruct IH as [(N & Ee & ps & Ep)|((g & Hg & Hb) & e & He & Hee)].
      * left. split; [|split; [assumption|exists ps; assumption]]. intros g [->|Hg]; [intros (Hn & _); congruence|apply N; assumption].
      * right. split; [exists g; split; [right; assumption|assumption]|]. exists e; auto.
    + unfold s at 1 3 5 7. rewrite !assoc_map. destruct (assoc (f_name f) fs) as [x|] eqn:Ea; cbn [option_map].
      * destruct (T x) as (p & Hp). destruct (H (f_name f) x) as [(Nx & Ex)|(Yx & Ex)]; [apply assoc_in; assumption| |].
        -- rewrite Ex, Hp. cbn [bind].
           destruct IH as [(N & Ee & ps & Ep)|((g & Hg & Hb) & e & He & Hee)].
           ++ left. rewrite Ee, Ep. cbn [bind]. split; [|split; [reflexivity|eexists; reflexivity]].
              intros g [->|Hg]; [|apply N; assumption]. intros (_ & [Hb|(y & Hy & Hh)]).
              ** apply assoc_none_notin in Hb. congruence.
              ** rewrite Ea in Hy. inversion Hy; subst; contradiction.
           ++ right. split; [exists g; split; [right; assumption|assumption]|]. exists e. rewrite He. auto.
        -- rewrite Ex. cbn [bind]. right. split.
           ++ exists f. split; [left; reflexivity|]. split; [assumption|]. right; exists x; auto.
           ++ exists ValidationError; auto.
      * right. split; [|exists AttributeError; auto]. exists f. split; [left; reflexivity|]. split; [assumption|].
        left. apply assoc_none_notin; assumption.
Qed.

Lemma hits_list_inv E l : hits E (VList l) <-> exists x, In x l /\ hits E x.
Proof. split; [intro H; inversion H; subst; [inversion H0|exists x; auto]|intros (x & H1 & H2); eapply hits_list; eassumption]. Qed.
Lemma hits_tuple_inv E l : hits E (VTuple l) <-> exists x, In x l /\ hits E x.
Proof. split; [intro H; inversion H; subst; [inversion H0|exists x; auto]|intros (x & H1 & H2); eapply hits_tuple; eassumption]. Qed.
Lemma hits_dict_inv E d : hits E (VDict d) <-> exists kx, In kx d /\ hits E (snd kx).
Proof. split; [intro H; inversion H; subst; [inversion H0|exists (k, x); auto]|intros ([k x] & H1 & H2); eapply hits_dict; eassumption]. Qed.

Lemma by_user_fields E c fds : by_user E c -> by_fields E c fds -> False.
Proof. intros [H|(_ & H)] (_ & H1 & H2); congruence. Qed.

Lemma hits_fields_inv E c fds fs : by_fields E c fds -> hits E (VObj c fs) -> exists f, In f fds /\ field_bad E fs f.
Proof.
  intros B H. inversion H as [v U|c' fs' i U| | | | |c' fds' fs' f x B' Hf Hn Ha Hx]; subst.
  - inversion U as [c0 fs0 N0|c0 m0 N0|i0 N0|c0 fs0 e0 BU Hex Hse|c0 m0 e0 K0 NB Hex Hse|c0 fs0 NM|c0 fds0 fs0 f0 BF Hf0 Hn0 Ha0]; subst.
    + destruct B; contradiction.
    + exfalso; eapply by_user_fields; eassumption.
    + destruct B as (_ & B1 & B2). destruct NM as (_ & _ & [H1|(ms & H1)]); congruence.
    + destruct B as (_ & B1 & B2), BF as (_ & _ & H1). assert (fds0 = fds) by congruence; subst.
      exists f0. split; [assumption|]. split; [assumption|left; assumption].
  - exfalso; eapply by_user_fields; eassumption.
  - destruct B as (_ & B1 & B2), B' as (_ & _ & B'). assert (fds' = fds) by congruence; subst.
    exists f. split; [assumption|]. split; [assumption|right; exists x; auto].
Qed.

Lemma field_bad_hits E c fds fs f : by_fields E c fds -> In f fds -> field_bad E fs f -> hits E (VObj c fs).
Proof.
  intros B Hf (Hn & [H|(x & Ha & H)]).
  - apply hits_here. eapply uo_attr; eassumption.
  - eapply hits_field; eassumption.
Qed.

Lemma ser_validate E : tame E -> forall v co, vrel (hits E v) (ser E true co v) (ser E false co v).
Proof.
  intros T. assert (TT : forall v, exists p, ser E false false v = Ok p) by (intro; apply ser_total; assumption).
  intro v. induction v as [a|l IH|l IH|d IH|c fs IH|c m|i|i] using val_ind'; intro co.
  - left. split; [intro H; inversion H; inversion H0|reflexivity].
  - unfold vrel. rewrite hits_list_inv. cbn [ser].
    destruct (vrel_map (ser E true false) (ser E false false) (hits E) l) as [(N & Ee)|(Y & Ee)];
      [intros; apply TT|intros; apply IH; assumption| |]; rewrite Ee; [left; auto|right; auto].
  - unfold vrel. rewrite hits_tuple_inv. cbn [ser].
    destruct (vrel_map (ser E true false) (ser E false false) (hits E) l) as [(N & Ee)|(Y & Ee)];
      [intros; apply TT|intros; apply IH; assumption| |]; rewrite Ee; [left; auto|right; auto].
  - unfold vrel. rewrite hits_dict_inv. cbn [ser].
    assert (G : forall V, map_res (fun kv : atom * val => do p <- ser E V false (snd kv); Ok (fst kv, p)) d =
      do ps <- map_res (fun kv => ser E V false (snd kv)) d; Ok (combine (map fst d) ps)).
    { intro V. clear IH. induction d as [|[k x] d IHd]; [reflexivity|]. rewrite !map_res_cons. cbn [fst snd].
      destruct (ser E V false x); cbn [bind]; [|reflexivity]. rewrite IHd.
      destruct (map_res (fun kv : atom * val => ser E V false (snd kv)) d); reflexivity. }
    rewrite !G.
    destruct (vrel_map (fun kv : atom * val => ser E true false (snd kv)) (fun kv => ser E false false (snd kv)) (fun kv => hits E (snd kv)) d) as [(N & Ee)|(Y & Ee)];
      [intros; apply TT|intros [k x] Hx; eapply IH; eassumption| |]; rewrite Ee; [left; auto|right; auto].
  - cbn [ser]. destruct (known_dec E c) as [(t & Ht & K)|(Ht & N)].
    2:{ rewrite Ht. right. split; [apply hits_here; constructor; assumption|reflexivity]. }
    rewrite Ht. destruct (c_custom (e_class E c)) as [n|] eqn:Ec; [|destruct (c_kind (e_class E c)) as [fds|ms| |] eqn:Ek].
    + assert (B : by_user E c) by (left; congruence). rewrite !(by_user_method E c) by assumption. rewrite !finish_V.
      unfold call_ser. destruct (e_ser E c fs) as [[p|i]|e] eqn:Ee.
      * left. split; [|reflexivity]. intro H. inversion H as [v U| | | | | |c0 fds0 fs0 f0 x0 BF]; subst; try congruence.
        -- inversion U as [c0 fs0 N0|c0 m0 N0|i0 N0|c0 fs0 e0 BU Hex Hse|c0 m0 e0 K0 NB Hex Hse|c0 fs0 NM|c0 fds0 fs0 f0 BF Hf0 Hn0 Ha0]; subst; first [contradiction|congruence|destruct NM as (_ & H2 & _); congruence|destruct BF as (_ & H2 & _); congruence].
        -- destruct BF as (_ & BF2 & _); congruence.
      * right. split; [eapply hits_result; eassumption|reflexivity].
      * pose proof (proj1 T _ _ _ Ee) as He. change (is_ser_error e = false) in He. rewrite He. right. split; [apply hits_here; eapply uo_raise; eassumption|reflexivity].
    + assert (B : by_fields E c fds) by (repeat split; assumption).
      unfold obj_content. rewrite Ec, Ek.
      destruct (ser_fields_vrel E fds fs TT) as [(N & Ee & ps & Ep)|((f & Hf & Hb) & e & He & Hee)].
      * intros k x Hi. eapply IH; eassumption.
      * rewrite Ee. left. split; [|rewrite Ep; reflexivity]. intro H. destruct (hits_fields_inv _ _ _ _ B H) as (f & Hf & Hb). eapply N; eassumption.
      * rewrite He. right. split; [eapply field_bad_hits; eassumption|]. destruct Hee as [-> | ->]; reflexivity.
    + unfold obj_content. rewrite Ec, Ek. right. split; [|reflexivity]. apply hits_here. apply uo_no_method. repeat split; try assumption. right; eexists; eassumption.
    + assert (B : by_user E c) by (right; auto). rewrite !(by_user_method E c) by assumption. rewrite !finish_V.
      unfold call_ser. destruct (e_ser E c fs) as [[p|i]|e] eqn:Ee.
      * left. split; [|reflexivity]. intro H. inversion H as [v U| | | | | |c0 fds0 fs0 f0 x0 BF]; subst; try congruence.
        -- inversion U as [c0 fs0 N0|c0 m0 N0|i0 N0|c0 fs0 e0 BU Hex Hse|c0 m0 e0 K0 NB Hex Hse|c0 fs0 NM|c0 fds0 fs0 f0 BF Hf0 Hn0 Ha0]; subst; first [contradiction|congruence|destruct NM as (_ & _ & [H2|(ms & H2)]); congruence|destruct BF as (_ & _ & H2); congruence].
        -- destruct BF as (_ & _ & BF2); congruence.
      * right. split; [eapply hits_result; eassumption|reflexivity].
      * pose proof (proj1 T _ _ _ Ee) as He. change (is_ser_error e = false) in He. rewrite He. right. split; [apply hits_here; eapply uo_raise; eassumption|reflexivity].
    + unfold obj_content. rewrite Ec, Ek. right. split; [|reflexivity]. apply hits_here. apply uo_no_method. repeat split; try assumption. left; assumption.
  - cbn [ser]. destruct (known_dec E c) as [(t & Ht & K)|(Ht & N)].
    2:{ rewrite Ht. right. split; [apply hits_here; constructor; assumption|reflexivity]. }
    rewrite Ht.
    assert (D : by_name E c \/ ~ by_name E c).
    { destruct (c_custom (e_class E c)) eqn:Ec; [right; intros (_ & H & _); congruence|].
      destruct (c_kind (e_class E c)) eqn:Ek; try (right; intros (_ & _ & ms & H); congruence).
      left. repeat split; [assumption|assumption|eexists; eassumption]. }
    destruct D as [B|B].
    + pose proof B as (_ & B2 & ms & B3). rewrite B2, B3. left. split; [|reflexivity]. intro H. inversion H as [v U| | | | | |]; subst; [|contradiction].
      inversion U; subst; contradiction.
    + rewrite enum_method by assumption. rewrite !finish_V. unfold call_ser. destruct (e_ser E c [($"name", VAtom (AStr m))]) as [[p|i]|e] eqn:Ee.
      * left. split; [|reflexivity]. intro H. inversion H as [v U| | | | | |]; subst; [|congruence].
        inversion U; subst; [contradiction|congruence].
      * right. split; [eapply hits_enum_result; eassumption|reflexivity].
      * pose proof (proj1 T _ _ _ Ee) as He. change (is_ser_error e = false) in He. rewrite He. right. split; [apply hits_here; eapply uo_enum_raise; eassumption|reflexivity].
  - cbn [ser]. destruct (inst_name (e_insts E) i) as [n|] eqn:En.
    + left. split; [|reflexivity]. intro H. inversion H as [v U| | | | | |]; subst. inversion U as [c0 fs0 N0|c0 m0 N0|i0 N0|c0 fs0 e0 BU Hex Hse|c0 m0 e0 K0 NB Hex Hse|c0 fs0 NM|c0 fds0 fs0 f0 BF Hf0 Hn0 Ha0]; subst.
      eapply N0. apply inst_name_in; eassumption.
    + right. split; [|reflexivity]. apply hits_here, uo_inst. intros n Hi. destruct (inst_name_some _ _ _ Hi) as (m & Hm). congruence.
  - left. split; [intro H; inversion H as [v U| | | | | |]; inversion U|reflexivity].
Qed.

(** * Validation of deserialization *)
Lemma redeser_rel v : (redeser true v = redeser false v /\ forall w, redeser false v = Ok w -> ~ has_marker w)
  \/ redeser true v = Exn ValidationError.
Proof.
  assert (L : forall l, (forall x, In x l -> (redeser true x = redeser false x /\ forall w, redeser false x = Ok w -> ~ has_marker w)
                 \/ redeser true x = Exn ValidationError) ->
     (map_res (redeser true) l = map_res (redeser false) l /\ forall ws, map_res (redeser false) l = Ok ws -> forall w, In w ws -> ~ has_marker w)
     \/ map_res (redeser true) l = Exn ValidationError).
  { induction l as [|x l IHl]; intro H.
    - left. split; [reflexivity|]. intros ws Hw w Hi. inversion Hw; subst; destruct Hi.
    - rewrite !map_res_cons. destruct (H x) as [(Ex & Hx)|Ex]; [left; reflexivity| |right; rewrite Ex; reflexivity].
      rewrite Ex. destruct (redeser false x) as [y|e]; [|left; split; [reflexivity|discriminate]]. cbn [bind].
      destruct IHl as [(El & Hl)|El]; [intros; apply H; right; assumption| |right; rewrite El; reflexivity].
      rewrite El. left. split; [reflexivity|]. destruct (map_res (redeser false) l) as [ys|e]; [|discriminate]. cbn [bind].
      intros ws Hw w Hi. inversion Hw; subst. destruct Hi as [<-|Hi]; [apply Hx; reflexivity|eapply Hl; [reflexivity|assumption]]. }
  induction v as [a|l IH|l IH|d IH|c fs IH|c m|i|i] using val_ind'; cbn [redeser]; try (right; reflexivity).
  - left. split; [reflexivity|]. intros w Hw H; inversion Hw; subst; inversion H.
  - destruct (L l IH) as [(El & Hl)|El]; rewrite El; [left; split; [reflexivity|]|right; reflexivity].
    destruct (map_res (redeser false) l); cbn [bind]; [|discriminate]. intros w Hw H. inversion Hw; subst. inversion H; subst. eapply Hl; [reflexivity|eassumption|assumption].
  - destruct (L l IH) as [(El & Hl)|El]; rewrite El; [left; split; [reflexivity|]|right; reflexivity].
    destruct (map_res (redeser false) l); cbn [bind]; [|discriminate]. intros w Hw H. inversion Hw; subst. inversion H; subst. eapply Hl; [reflexivity|eassumption|assumption].
  - assert (G : forall V, map_res (fun kv : atom * val => do x <- redeser V (snd kv); Ok (fst kv, x)) d =
      do ps <- map_res (redeser V) (map snd d); Ok (combine (map fst d) ps)).
    { intro V. clear IH. induction d as [|[k x] d IHd]; [reflexivity|]. cbn [map fst snd]. rewrite !map_res_cons. cbn [fst snd].
      destruct (redeser V x); cbn [bind]; [|reflexivity]. rewrite IHd.
      destruct (map_res (redeser V) (map snd d)); reflexivity. }
    rewrite !G. destruct (L (map snd d)) as [(El & Hl)|El].
    + intros x Hx. apply in_map_iff in Hx as ([k y] & <- & Hx). eapply IH; eassumption.
    + left. rewrite El. split; [reflexivity|]. destruct (map_res (redeser false) (map snd d)) as [ws|e]; cbn [bind]; [|discriminate].
      intros w Hw H. inversion Hw; subst. inversion H; subst. eapply Hl; [reflexivity|eapply in_combine_r; eassumption|assumption].
    + right. rewrite El. reflexivity.
Qed.

Definition clean (r : res val) : Prop := forall v, r = Ok v -> ~ has_marker v.
Definition clean_or_marker (r : res val) : Prop := forall v, r = Ok v -> has_marker v -> exists i, v = VInvalid i.
Definition dirty (r : res val) : Prop := forall v, r = Ok v -> has_marker v.
(** [D] holds when the dirty part is wanted. *)
Definition drel (C : res val -> Prop) (D : Prop) (r1 r0 : res val) : Prop :=
  (r1 = r0 /\ C r0) \/ (r1 = Exn ValidationError /\ (D -> dirty r0)).

Lemma has_marker_atom a : ~ has_marker (VAtom a).
Proof. intro H; inversion H. Qed.

Lemma drel_check D r1 r0 : drel clean_or_marker D r1 r0 -> drel clean D (check true r1) (check false r0).
Proof.
  intros [(-> & C)|(-> & C)].
  - destruct r0 as [v|e]; [|left; split; [reflexivity|discriminate]].
    assert (G : (exists i, v = VInvalid i) \/ (forall V, check V (Ok v) = Ok v)).
    { destruct v; try (right; intros []; reflexivity). left; eexists; reflexivity. }
    destruct G as [(i & ->)|G].
    + right. split; [reflexivity|]. intros _ w Hw. cbn in Hw. inversion Hw; subst; constructor.
    + left. rewrite !G. split; [reflexivity|]. intros w Hw H. inversion Hw; subst.
      destruct (C w eq_refl H) as (i & ->). specialize (G true). discriminate.
  - right. split; [reflexivity|]. intros HD v Hv. destruct r0 as [w|e]; [|discriminate].
    assert (w = v) by (destruct w; cbn in Hv; congruence). subst. apply C; auto.
Qed.

Lemma drel_map {A B} D (g1 g0 : A -> res B) (h : B -> val) (l : list A) :
  (forall x, In x l -> (g1 x = g0 x /\ forall y, g0 x = Ok y -> ~ has_marker (h y)) \/ (g1 x = Exn ValidationError /\ (D -> forall y, g0 x = Ok y -> has_marker (h y)))) ->
  (map_res g1 l = map_res g0 l /\ forall ys, map_res g0 l = Ok ys -> forall y, In y ys -> ~ has_marker (h y)) \/
  (map_res g1 l = Exn ValidationError /\ (D -> forall ys, map_res g0 l = Ok ys -> exists y, In y ys /\ has_marker (h y))).
Proof.
  induction l as [|x l IH]; intro H.
  - left. split; [reflexivity|]. intros ys Hy y Hi. inversion Hy; subst; destruct Hi.
  - rewrite !map_res_cons. destruct (H x) as [(Ex & Cx)|(Ex & Cx)]; [left; reflexivity| |].
    + rewrite Ex. destruct (g0 x) as [y|e]; [|left; split; [reflexivity|discriminate]]. cbn [bind].
      destruct IH as [(El & Cl)|(El & Cl)]; [intros; apply H; right; assumption| |].
      * rewrite El. left. split; [reflexivity|]. destruct (map_res g0 l) as [zs|e]; cbn [bind]; [|discriminate].
        intros ys Hy z Hz. inversion Hy; subst. destruct Hz as [<-|Hz]; [apply Cx; reflexivity|eapply Cl; [reflexivity|assumption]].
      * rewrite El. right. split; [reflexivity|]. intro HD. destruct (map_res g0 l) as [zs|e]; cbn [bind]; [|discriminate].
        intros ys Hy. inversion Hy; subst. destruct (Cl HD zs eq_refl) as (z & Hz & Mz). exists z; split; [right; assumption|assumption].
    + rewrite Ex. right. split; [reflexivity|]. intro HD. destruct (g0 x) as [y|e]; cbn [bind]; [|discriminate].
      destruct (map_res g0 l) as [zs|e]; cbn [bind]; [|discriminate]. intros ys Hy. inversion Hy; subst.
      exists y. split; [left; reflexivity|apply Cx; auto].
Qed.

Lemma call_de_drel E c p D r1 r0 : drel clean_or_marker D r1 r0 -> drel clean_or_marker D (call_de E c p r1) (call_de E c p r0).
Proof.
  intros [(-> & C)|(-> & C)].
  - left. split; [reflexivity|]. unfold call_de. destruct r0 as [v|e]; [assumption|].
    destruct (is_ser_error e); [discriminate|]. intros v Hv _. inversion Hv; eexists; reflexivity.
  - right. split; [reflexivity|]. intro HD. unfold call_de. destruct r0 as [v|e]; [apply C; assumption|].
    destruct (is_ser_error e); [discriminate|]. intros v Hv. inversion Hv; constructor.
Qed.

Lemma clean_cm r : clean r -> clean_or_marker r.
Proof. intros H v Hv Hm. exfalso; eapply H; eassumption. Qed.
Lemma drel_cm D r1 r0 : drel clean D r1 r0 -> drel clean_or_marker D r1 r0.
Proof. intros [(H & C)|H]; [left; split; [assumption|apply clean_cm; assumption]|right; assumption]. Qed.
Lemma drel_same (C : res val -> Prop) (D : Prop) r : C r -> drel C D r r.
Proof. intro H; left; auto. Qed.
Lemma cm_marker i : clean_or_marker (Ok (VInvalid i)).
Proof. intros v Hv _; inversion Hv; eexists; reflexivity. Qed.
Lemma cm_exn e : clean_or_marker (Exn e).
Proof. discriminate. Qed.
Lemma cm_atom a : clean_or_marker (Ok (VAtom a)).
Proof. intros v Hv H; inversion Hv; subst; inversion H. Qed.

Lemma str_keys_spec (vs : list (atom * val)) args :
  map_res (fun kv => do k <- str_key (fst kv); Ok (k, snd kv)) vs = Ok args ->
  vs = map (fun kv => (AStr (fst kv), snd kv)) args.
Proof.
  revert args; induction vs as [|[k v] vs IH]; intros args H; [inversion H; reflexivity|].
  rewrite map_res_cons in H. cbn [fst snd] in H. destruct k; try discriminate. cbn [str_key bind] in H.
  destruct (map_res _ vs) as [r|e]; cbn [bind] in H; [|discriminate]. inversion H; subst. cbn [map fst snd]. rewrite <- IH; reflexivity.
Qed.

Lemma build_in fs args r f v : build fs args = Ok r -> In f fs -> f_init f = true -> assoc (f_name f) args = Some v -> In (f_name f, v) r.
Proof.
  revert r; induction fs as [|g fs IH]; intros r H Hi Hf Ha; [destruct Hi|]. cbn [build] in H.
  destruct (build fs args) as [r'|e] eqn:Eb; cbn [bind] in H; [|discriminate].
  destruct Hi as [->|Hi].
  - rewrite Hf, Ha in H. inversion H; left; reflexivity.
  - specialize (IH r' eq_refl Hi Hf Ha).
    destruct (if f_init g then assoc (f_name g) args else None); [inversion H; right; assumption|].
    destruct (f_default g); [inversion H; right; assumption|]. destruct (f_init g); inversion H; subst; assumption.
Qed.

Lemma build_from fs args r k v : build fs args = Ok r -> In (k, v) r ->
  In (k, v) args \/ exists f, In f fs /\ f_default f = Some v.
Proof.
  revert r; induction fs as [|g fs IH]; intros r H Hi; cbn [build] in H; [inversion H; subst; destruct Hi|].
  destruct (build fs args) as [r'|e] eqn:Eb; cbn [bind] in H; [|discriminate].
  assert (G : In (k, v) r' -> In (k, v) args \/ exists f, In f (g :: fs) /\ f_default f = Some v).
  { intro Hr. destruct (IH r' eq_refl Hr) as [?|(f & ? & ?)]; [left; assumption|right; exists f; split; [right; assumption|assumption]]. }
  destruct (if f_init g then assoc (f_name g) args else None) as [w|] eqn:Ea.
  - inversion H; subst. destruct Hi as [Hi|Hi]; [|auto]. inversion Hi; subst.
    destruct (f_init g); [|discriminate]. left. apply assoc_in; assumption.
  - destruct (f_default g) as [w|] eqn:Ed.
    + inversion H; subst. destruct Hi as [Hi|Hi]; [|auto]. inversion Hi; subst. right. exists g; split; [left; reflexivity|assumption].
    + destruct (f_init g); inversion H; subst; auto.
Qed.

Lemma construct_inv fs args r : construct fs args = Ok r ->
  build fs args = Ok r /\ forall k v, In (k, v) args -> exists f, In f fs /\ f_init f = true /\ f_name f = k.
Proof.
  unfold construct. destruct (forallb _ _) eqn:Ef; [|discriminate]. intro H; split; [assumption|].
  intros k v Hi. rewrite forallb_forall in Ef. specialize (Ef _ Hi). cbn [fst] in Ef. apply member_in in Ef.
  unfold init_names in Ef. apply in_map_iff in Ef as (f & Hn & Hf). apply filter_In in Hf as (Hf & Hi'). exists f; auto.
Qed.

Lemma json_ready_child_list l x : json_ready (PList l) -> In x l -> json_ready x.
Proof. intro H; inversion H; auto. Qed.
Lemma json_ready_child_dict d k x : json_ready (PDict d) -> In (k, x) d -> json_ready x.
Proof. intro H; inversion H; eauto. Qed.
Lemma json_ready_keys d : json_ready (PDict d) -> NoDup (map fst d).
Proof. intro H; inversion H; auto. Qed.

Definition xok (D : Prop) (x : expect) : Prop := D -> x <> XStr n_undeser /\ x <> XCls CUndeser.
Definition IHfst (E : env) (D : Prop) (p : pser) : Prop := forall x, xok D x -> drel clean D (deser E true p x) (deser E false p x).
Definition IHsnd (E : env) (D : Prop) (p : pser) : Prop := forall c, (D -> c <> CUndeser) -> drel clean_or_marker D (deser_obj E true p c) (deser_obj E false p c).

Lemma xok_none D : xok D XNone.
Proof. intros _; split; discriminate. Qed.

Lemma kids_drel E D d : (forall k x, In (k, x) d -> IHfst E D x) ->
  let g V := map_res (fun kq : atom * pser => do v <- deser E V (snd kq) XNone; Ok (fst kq, v)) d in
  (g true = g false /\ forall ys, g false = Ok ys -> forall y, In y ys -> ~ has_marker (snd y)) \/
  (g true = Exn ValidationError /\ (D -> forall ys, g false = Ok ys -> exists y, In y ys /\ has_marker (snd y))).
Proof.
  intros H g. unfold g. apply (drel_map D _ _ (@snd atom val)).
  intros [k x] Hi. cbn [fst snd]. destruct (H k x Hi XNone (xok_none D)) as [(Ex & C)|(Ex & C)]; rewrite Ex; cbn [bind].
  - left. split; [reflexivity|]. destruct (deser E false x XNone) as [v|e]; cbn [bind]; [|discriminate].
    intros y Hy. inversion Hy; subst. apply C; reflexivity.
  - right. split; [reflexivity|]. intro HD. destruct (deser E false x XNone) as [v|e]; cbn [bind]; [|discriminate].
    intros y Hy. inversion Hy; subst. apply (C HD); reflexivity.
Qed.

Lemma de_dict_drel E D d : (forall k x, In (k, x) d -> IHfst E D x) ->
  drel clean D (de_dict (dkids E true (PDict d))) (de_dict (dkids E false (PDict d))).
Proof.
  intro H. rewrite !de_dict_eq. destruct (kids_drel E D d H) as [(Ee & C)|(Ee & C)]; cbv zeta in Ee, C; rewrite Ee; clear Ee.
  - left. split; [reflexivity|]. destruct (map_res _ d) as [ys|e]; cbn [bind]; [|intros ? ?; discriminate].
    intros v Hv Hm. inversion Hv; subst. inversion Hm; subst. eapply (C ys eq_refl (k, x)); assumption.
  - right. split; [reflexivity|]. intro HD. destruct (map_res _ d) as [ys|e]; cbn [bind]; [|intros ? ?; discriminate].
    intros v Hv. inversion Hv; subst. destruct (C HD ys eq_refl) as ([k x] & Hy & Hm). eapply hm_dict; eassumption.
Qed.

Lemma de_list_drel E D l : (forall x, In x l -> IHfst E D x) ->
  drel clean D (de_list (lkids E true (PList l))) (de_list (lkids E false (PList l))).
Proof.
  intro H. rewrite !de_list_eq.
  destruct (drel_map D (fun q => deser E true q XNone) (fun q => deser E false q XNone) (fun v => v) l) as [(Ee & C)|(Ee & C)].
  { intros x Hx. apply (H x Hx XNone (xok_none D)). }
  - rewrite Ee; clear Ee. left. split; [reflexivity|]. destruct (map_res _ l) as [ys|e]; cbn [bind]; [|intros ? ?; discriminate].
    intros v Hv Hm. inversion Hv; subst. inversion Hm; subst. eapply C; [reflexivity|eassumption|assumption].
  - rewrite Ee; clear Ee. right. split; [reflexivity|]. intro HD. destruct (map_res _ l) as [ys|e]; cbn [bind]; [|intros ? ?; discriminate].
    intros v Hv. inversion Hv; subst. destruct (C HD ys eq_refl) as (x & Hx & Hm). eapply hm_list; eassumption.
Qed.

Lemma forall2_fst {A B C} (g : B -> res C) (d : list (A * B)) ys :
  map_res (fun kq => do v <- g (snd kq); Ok (fst kq, v)) d = Ok ys -> map fst ys = map fst d.
Proof.
  revert ys; induction d as [|[k x] d IH]; intros ys H; [inversion H; reflexivity|].
  rewrite map_res_cons in H. cbn [fst snd] in H. destruct (g x); cbn [bind] in H; [|discriminate].
  destruct (map_res _ d) as [zs|e] eqn:Em; cbn [bind] in H; [|discriminate]. inversion H; subst. cbn [map fst]. f_equal. apply IH; reflexivity.
Qed.

Lemma obj_drel E (D : Prop) p : open_markers E -> json_ready p -> (D -> ~ mentions n_undeser p) ->
  (forall d k x, p = PDict d -> In (k, x) d -> IHfst E D x) ->
  drel clean D (deser E true p XNone) (deser E false p XNone) ->
  IHsnd E D p.
Proof.
  intros OM Hr Hm Hk Hs c Hc. rewrite !deser_obj_eq. unfold de_object.
  destruct c as [n| | | | |].
  - destruct (c_custom (e_class E n)) eqn:Ec.
    + apply call_de_drel, drel_same. intros v Hv Hh. eapply (proj1 OM); eassumption.
    + destruct (c_kind (e_class E n)) as [fds|ms| |] eqn:Ek.
      * apply call_de_drel. destruct p as [a|l|d]; try (apply drel_same, cm_exn).
        unfold dkids. rewrite !map_res_map. cbn [fst snd].
        change (fun x : atom * pser => do v <- fst (deser_z E true (snd x)) XNone; Ok (fst x, v))
          with (fun x : atom * pser => do v <- deser E true (snd x) XNone; Ok (fst x, v)).
        change (fun x : atom * pser => do v <- fst (deser_z E false (snd x)) XNone; Ok (fst x, v))
          with (fun x : atom * pser => do v <- deser E false (snd x) XNone; Ok (fst x, v)).
        destruct (kids_drel E D d) as [(Ee & C)|(Ee & C)]; [intros; eapply Hk; [reflexivity|eassumption]| |]; cbv zeta in Ee, C; rewrite Ee; clear Ee.
        -- apply drel_same. destruct (map_res (fun x : atom * pser => do v <- deser E false (snd x) XNone; Ok (fst x, v)) d) as [vs|e]; cbn [bind]; [|apply cm_exn].
           destruct (map_res (fun kv : atom * val => do k <- str_key (fst kv); Ok (k, snd kv)) vs) as [args|e] eqn:Ea; cbn [bind]; [|apply cm_exn].
           destruct (construct fds args) as [fvs|e] eqn:Eb; cbn [bind]; [|apply cm_exn].
           apply str_keys_spec in Ea. apply construct_inv in Eb as (Eb & _).
           intros v Hv Hh. inversion Hv; subst v. inversion Hh; subst. exfalso.
           match goal with H : In (?k, ?x) fvs |- _ => destruct (build_from _ _ _ _ _ Eb H) as [Hin|(f & Hf & Hd)] end.
           ++ eapply (C _ eq_refl (AStr k, x)); [|eassumption]. apply in_map_iff. exists (k, x). auto.
           ++ eapply (proj2 OM); eassumption.
        -- right. split; [reflexivity|]. intro HD.
           destruct (map_res (fun x : atom * pser => do v <- deser E false (snd x) XNone; Ok (fst x, v)) d) as [vs|e] eqn:Ev; cbn [bind]; [|intros ? ?; discriminate].
           destruct (map_res (fun kv : atom * val => do k <- str_key (fst kv); Ok (k, snd kv)) vs) as [args|e] eqn:Ea; cbn [bind]; [|intros ? ?; discriminate].
           destruct (construct fds args) as [fvs|e] eqn:Eb; cbn [bind]; [|intros ? ?; discriminate].
           apply str_keys_spec in Ea. apply construct_inv in Eb as (Eb & Ei).
           intros v Hv. inversion Hv; subst v. destruct (C HD _ eq_refl) as ([k x] & Hin & Hh).
           pose proof (forall2_fst (fun q => deser E false q XNone) _ _ Ev) as Hfst. subst vs. apply in_map_iff in Hin as ([s y] & He & Hin). inversion He; subst.
           destruct (Ei _ _ Hin) as (f & Hf & Hfi & Hfn). subst s.
           eapply hm_obj; [|exact Hh]. eapply build_in; [eassumption|eassumption|assumption|].
           apply assoc_in_nodup; [|assumption].
           apply json_ready_keys in Hr. rewrite <- Hfst, map_map in Hr. cbn [fst] in Hr.
           rewrite <- (map_map fst AStr) in Hr. apply NoDup_map_inv in Hr. assumption.
      * apply call_de_drel, drel_same. destruct p as [[]| |]; try (apply cm_exn). destruct (member (last_name s) ms); [|apply cm_exn].
        intros v Hv Hh; inversion Hv; subst; inversion Hh.
      * apply call_de_drel, drel_same. intros v Hv Hh. eapply (proj1 OM); eassumption.
      * apply drel_same, cm_marker.
  - apply call_de_drel, drel_same. destruct p; [apply cm_exn..|apply cm_marker].
  - apply call_de_drel, drel_same. destruct p; [apply cm_exn..|]. destruct (e_parse_trace E _); cbn [bind]; [apply cm_marker|apply cm_exn].
  - apply call_de_drel. assert (ND : ~ D) by (intro HD; apply (Hc HD); reflexivity).
    unfold de_undeser. destruct Hs as [(Es & C)|(Es & C)]; rewrite Es.
    + destruct (deser E false p XNone) as [v|e]; cbn [bind]; [|apply drel_same, cm_exn].
      destruct v; try (apply drel_same, cm_exn). destruct (map_res _ d) as [args|e]; cbn [bind]; [|apply drel_same, cm_exn].
      destruct (_ && _); [|apply drel_same, cm_exn].
      assert (RR : forall s, drel clean_or_marker D (redeser true s) (redeser false s)).
      { intro s. destruct (redeser_rel s) as [(Er & Cr)|Er]; [left; split; [assumption|apply clean_cm; assumption]|right; split; [assumption|intro; contradiction]]. }
      destruct (assoc ($"serialized") args) as [s|]; [|apply drel_same, cm_marker].
      destruct s as [[]| | | | | | | ]; try (apply drel_same, cm_marker);
        (destruct (assoc ($"expected") args) as [[[]| | | | | | | ]|]; try (apply drel_same, cm_exn); apply RR).
    + right. split; [reflexivity|intro; contradiction].
  - apply call_de_drel. destruct p as [a|l|d]; try (apply drel_same, cm_exn).
    unfold de_exc_undeser. destruct (map_res _ d) as [names|e]; cbn [bind]; [|apply drel_same, cm_exn].
    destruct (_ && _); [|apply drel_same, cm_exn].
    unfold dkids. rewrite !(assoc_a_map (deser_z E _)).
    destruct (assoc_a (key "serialized") d) as [q|] eqn:Eq; [|apply drel_same, cm_marker]. cbn [option_map].
    assert (Hq : forall x, xok D x -> drel clean_or_marker D (fst (deser_z E true q) x) (fst (deser_z E false q) x)).
    { intros x Hx. apply drel_cm. apply (Hk d (key "serialized") q eq_refl (assoc_a_in _ _ _ Eq) x Hx). }
    assert (G : drel clean_or_marker D
       match assoc_a (key "expected") d with
        | Some (PAtom (AStr t)) => fst (deser_z E true q) (XStr t)
        | Some (PAtom ANone) => fst (deser_z E true q) XNone
        | _ => Ok (VInvalid (IUndeser None ($"Could not recover __deserialize__ method") (PAtom ANone) None)) end
       match assoc_a (key "expected") d with
        | Some (PAtom (AStr t)) => fst (deser_z E false q) (XStr t)
        | Some (PAtom ANone) => fst (deser_z E false q) XNone
        | _ => Ok (VInvalid (IUndeser None ($"Could not recover __deserialize__ method") (PAtom ANone) None)) end).
    { destruct (assoc_a (key "expected") d) as [[[]| |]|] eqn:Ex; try (apply drel_same, cm_marker).
      - apply Hq, xok_none.
      - apply Hq. intro HD. split; [|discriminate]. intro He. inversion He; subst. apply (Hm HD).
        eapply me_dict; [apply assoc_a_in; eassumption|constructor]. }
    destruct q as [[]| |]; try exact G. apply drel_same, cm_marker.
  - apply call_de_drel, drel_same. destruct p as [[]| |]; try (apply cm_exn). destruct (assoc s (e_insts E)); [|apply cm_exn].
    intros v Hv Hh; inversion Hv; subst; inversion Hh.
Qed.

Lemma str2type_undeser E t : str2type E t = Some CUndeser -> t = n_undeser.
Proof.
  unfold str2type. repeat match goal with |- context [str_eq_dec ?a ?b] => destruct (str_eq_dec a b) end; try discriminate; auto.
  destruct (e_types E t); discriminate.
Qed.

Lemma cast_drel E D p t : drel clean_or_marker D (cast_other E p t) (cast_other E p t).
Proof.
  apply drel_same. unfold cast_other. destruct (e_cast E t p) as [[a|]|e]; cbn [bind]; [apply cm_atom|apply cm_marker|apply cm_exn].
Qed.
Lemma atomic_drel E D p t : drel clean_or_marker D (de_atomic E p t) (de_atomic E p t).
Proof.
  destruct p as [a|l|d]; cbn [de_atomic]; try apply cast_drel. destruct (aty_eq_dec _ _); [apply drel_same, cm_atom|apply cast_drel].
Qed.

Lemma empty_drel E D : drel clean D (deser E true (PDict []) XNone) (deser E false (PDict []) XNone).
Proof. left. split; [reflexivity|]. intros v Hv Hm. cbn in Hv. inversion Hv; subst. inversion Hm; subst. destruct H0. Qed.

Lemma deser_drel E : open_markers E -> forall p (D : Prop), json_ready p -> (D -> ~ mentions n_undeser p) ->
  IHfst E D p /\ IHsnd E D p.
Proof.
  intros OM p. induction p as [a|l IH|d IH] using pser_ind'; intros D Hr Hm.
  - assert (S : drel clean D (deser E true (PAtom a) XNone) (deser E false (PAtom a) XNone)).
    { rewrite !deser_atom. apply drel_same. intros v Hv H; inversion Hv; subst; inversion H. }
    assert (O : IHsnd E D (PAtom a)) by (apply obj_drel; auto; intros; discriminate).
    split; [|assumption]. intros x Hx. destruct (atom_eq_dec a ANone) as [->|N].
    { rewrite !deser_none. apply drel_same. intros v Hv H; inversion Hv; subst; inversion H. }
    rewrite !deser_eq by congruence. apply drel_check. destruct x; cbn [inner_expected inner_none].
    + apply atomic_drel.
    + destruct (str2type E t) eqn:Et; [|apply drel_same, cm_marker]. apply O. intros HD ->. apply (proj1 (Hx HD)). rewrite (str2type_undeser _ _ Et); reflexivity.
    + apply O. intros HD ->. apply (proj2 (Hx HD)); reflexivity.
    + apply atomic_drel.
    + destruct a; try (apply drel_same, cm_exn). apply drel_same. intros v Hv H. inversion Hv; subst. inversion H; subst.
      apply in_map_iff in H1 as (ch & <- & _). inversion H2.
    + destruct a; apply drel_same, cm_exn.
  - assert (IHl : forall x, In x l -> IHfst E D x).
    { intros x Hi. apply IH; [assumption|eapply json_ready_child_list; eassumption|]. intros HD Hx. apply (Hm HD). eapply me_list; eassumption. }
    assert (S : drel clean D (deser E true (PList l) XNone) (deser E false (PList l) XNone)).
    { rewrite !deser_eq by congruence. apply drel_check, drel_cm. cbn [inner_expected inner_none]. apply de_list_drel; assumption. }
    assert (O : IHsnd E D (PList l)) by (apply obj_drel; auto; intros; discriminate).
    split; [|assumption]. intros x Hx. rewrite !deser_eq by congruence. apply drel_check. destruct x; cbn [inner_expected inner_none].
    + apply drel_cm, de_list_drel; assumption.
    + destruct (str2type E t) eqn:Et; [|apply drel_same, cm_marker]. apply O. intros HD ->. apply (proj1 (Hx HD)). rewrite (str2type_undeser _ _ Et); reflexivity.
    + apply O. intros HD ->. apply (proj2 (Hx HD)); reflexivity.
    + apply atomic_drel.
    + apply drel_cm, de_list_drel; assumption.
    + apply drel_same, cm_exn.
  - assert (IHb : forall k x, In (k, x) d -> IHfst E D x /\ IHsnd E D x).
    { intros k x Hi. eapply IH; [eassumption|eapply json_ready_child_dict; eassumption|]. intros HD Hx. apply (Hm HD). eapply me_dict; eassumption. }
    assert (IHd : forall k x, In (k, x) d -> IHfst E D x) by (intros; eapply IHb; eassumption).
    assert (N : drel clean_or_marker D (inner_none E true (PDict d) (lkids E true (PDict d)) (dkids E true (PDict d)))
                    (inner_none E false (PDict d) (lkids E false (PDict d)) (dkids E false (PDict d)))).
    { unfold inner_none. destruct (assoc_a (AStr SER_TYPE) d) as [[[]| |]|] eqn:Et; try (apply drel_same, cm_marker); try (apply drel_same, cm_exn).
      - destruct (str2type E s) as [c|] eqn:Es; [|apply drel_same, cm_marker].
        assert (Hc : D -> c <> CUndeser).
        { intros HD ->. apply (Hm HD). apply str2type_undeser in Es; subst. eapply me_dict; [apply assoc_a_in; eassumption|constructor]. }
        unfold dkids. rewrite !(assoc_a_map (deser_z E _)). destruct (assoc_a (AStr SER_CONTENT) d) as [q|] eqn:Eq; cbn [option_map].
        + apply (proj2 (IHb _ _ (assoc_a_in _ _ _ Eq))); assumption.
        + assert (G : IHsnd E D (PDict [])).
          { apply obj_drel; auto.
            - constructor; [intros k x []|constructor|intros k x []].
            - intros HD H; inversion H; subst; match goal with Hi : In _ [] |- _ => destruct Hi end.
            - intros d' k x He Hi. inversion He; subst; destruct Hi.
            - apply empty_drel. }
          specialize (G c Hc). rewrite !deser_obj_eq in G. exact G.
      - apply drel_cm, de_dict_drel; assumption. }
    assert (S : drel clean D (deser E true (PDict d) XNone) (deser E false (PDict d) XNone)).
    { rewrite !deser_eq by congruence. apply drel_check. exact N. }
    assert (O : IHsnd E D (PDict d)).
    { apply obj_drel; auto. intros d' k x He Hi. inversion He; subst. eapply IHd; eassumption. }
    split; [|assumption]. intros x Hx. rewrite !deser_eq by congruence. apply drel_check. destruct x; cbn [inner_expected].
    + exact N.
    + destruct (str2type E t) eqn:Et; [|apply drel_same, cm_marker]. apply O. intros HD ->. apply (proj1 (Hx HD)). rewrite (str2type_undeser _ _ Et); reflexivity.
    + apply O. intros HD ->. apply (proj2 (Hx HD)); reflexivity.
    + apply atomic_drel.
    + apply drel_same. intros v Hv H. inversion Hv; subst. inversion H; subst.
      apply in_map_iff in H1 as (ch & <- & _). inversion H2.
    + apply drel_cm, de_dict_drel; assumption.
Qed.
