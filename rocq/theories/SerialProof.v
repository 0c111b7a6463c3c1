(** Lemmas about the serialization model. *)
From Coq Require Import List Ascii String Bool Arith ZArith Lia.
From Verif Require Import Base PosixModel FsModel PathModel SerialModel SerialSpec FsProof.
Import ListNotations.

(** * Induction *)
Section ValInd.
Variable P : val -> Prop.
Hypothesis Hatom : forall a, P (VAtom a).
Hypothesis Hlist : forall l, (forall x, In x l -> P x) -> P (VList l).
Hypothesis Htuple : forall l, (forall x, In x l -> P x) -> P (VTuple l).
Hypothesis Hdict : forall d, (forall k x, In (k, x) d -> P x) -> P (VDict d).
Hypothesis Hobj : forall c fs, (forall k x, In (k, x) fs -> P x) -> P (VObj c fs).
Hypothesis Henum : forall c m, P (VEnum c m).
Hypothesis Hinst : forall i, P (VInst i).
Hypothesis Hinvalid : forall i, P (VInvalid i).
Fixpoint val_ind' (v : val) : P v.
Proof.
  destruct v as [a|l|l|d|c fs|c m|i|i].
  - apply Hatom.
  - apply Hlist. induction l as [|y l IH]; intros x Hi; [destruct Hi|]; destruct Hi as [e|Hi].
    + rewrite <- e; apply val_ind'.
    + apply IH; assumption.
  - apply Htuple. induction l as [|y l IH]; intros x Hi; [destruct Hi|]; destruct Hi as [e|Hi].
    + rewrite <- e; apply val_ind'.
    + apply IH; assumption.
  - apply Hdict. intros k x Hi; change x with (snd (k, x)); revert Hi; generalize (k, x); clear k x.
    induction d as [|[k0 y] d IH]; intros kx Hi; [destruct Hi|]; destruct Hi as [e|Hi].
    + rewrite <- e; apply val_ind'.
    + apply IH; assumption.
  - apply Hobj. intros k x Hi; change x with (snd (k, x)); revert Hi; generalize (k, x); clear k x.
    induction fs as [|[k0 y] fs IH]; intros kx Hi; [destruct Hi|]; destruct Hi as [e|Hi].
    + rewrite <- e; apply val_ind'.
    + apply IH; assumption.
  - apply Henum.
  - apply Hinst.
  - apply Hinvalid.
Defined.
End ValInd.

Section PserInd.
Variable P : pser -> Prop.
Hypothesis Hatom : forall a, P (PAtom a).
Hypothesis Hlist : forall l, (forall x, In x l -> P x) -> P (PList l).
Hypothesis Hdict : forall d, (forall k x, In (k, x) d -> P x) -> P (PDict d).
Fixpoint pser_ind' (p : pser) : P p.
Proof.
  destruct p as [a|l|d].
  - apply Hatom.
  - apply Hlist. induction l as [|y l IH]; intros x Hi; [destruct Hi|]; destruct Hi as [e|Hi].
    + rewrite <- e; apply pser_ind'.
    + apply IH; assumption.
  - apply Hdict. intros k x Hi; change x with (snd (k, x)); revert Hi; generalize (k, x); clear k x.
    induction d as [|[k0 y] d IH]; intros kx Hi; [destruct Hi|]; destruct Hi as [e|Hi].
    + rewrite <- e; apply pser_ind'.
    + apply IH; assumption.
Defined.
End PserInd.

(** * Sequences *)
Lemma map_res_cons {A B} (f : A -> res B) x r :
  map_res f (x :: r) = (do y <- f x; do ys <- map_res f r; Ok (y :: ys)).
Proof. reflexivity. Qed.

Lemma map_res_ok {A B} (f : A -> res B) (g : A -> B) l :
  (forall x, In x l -> f x = Ok (g x)) -> map_res f l = Ok (map g l).
Proof.
  induction l as [|x l IH]; intro H; [reflexivity|].
  rewrite map_res_cons, H by (left; reflexivity); cbn [bind].
  rewrite IH by (intros; apply H; right; assumption). reflexivity.
Qed.

Lemma map_res_rel {A B} (f : A -> res B) (R : A -> B -> Prop) l :
  (forall x, In x l -> exists y, f x = Ok y /\ R x y) ->
  exists ys, map_res f l = Ok ys /\ Forall2 R l ys.
Proof.
  induction l as [|x l IH]; intro H; [exists []; split; [reflexivity|constructor]|].
  destruct (H x) as (y & Hy & Ry); [left; reflexivity|].
  destruct IH as (ys & Hys & Rys); [intros; apply H; right; assumption|].
  exists (y :: ys). rewrite map_res_cons, Hy; cbn [bind]; rewrite Hys. split; [reflexivity|constructor; assumption].
Qed.

Lemma map_res_forall2 {A B} (f : A -> res B) l ys :
  map_res f l = Ok ys <-> Forall2 (fun x y => f x = Ok y) l ys.
Proof.
  revert ys; induction l as [|x l IH]; intro ys.
  - split; intro H; [inversion H; constructor | inversion H; reflexivity].
  - rewrite map_res_cons. split; intro H.
    + destruct (f x) as [y|e] eqn:Ex; cbn [bind] in H; [|discriminate].
      destruct (map_res f l) as [zs|e] eqn:El; cbn [bind] in H; [|discriminate].
      inversion H; subst. constructor; [assumption|]. apply IH; reflexivity.
    + inversion H; subst. rewrite H2; cbn [bind]. apply IH in H4; rewrite H4. reflexivity.
Qed.

Lemma map_res_ext {A B} (f g : A -> res B) l :
  (forall x, In x l -> f x = g x) -> map_res f l = map_res g l.
Proof.
  induction l as [|x l IH]; intro H; [reflexivity|].
  rewrite !map_res_cons, H by (left; reflexivity).
  rewrite IH by (intros; apply H; right; assumption). reflexivity.
Qed.

Lemma map_res_map {A B C} (f : B -> res C) (g : A -> B) l :
  map_res f (map g l) = map_res (fun x => f (g x)) l.
Proof. induction l as [|x l IH]; [reflexivity|]. cbn [map]. rewrite !map_res_cons, IH; reflexivity. Qed.

Lemma map_res_exn {A B} (f : A -> res B) l e :
  map_res f l = Exn e -> exists x, In x l /\ f x = Exn e.
Proof.
  induction l as [|x l IH]; intro H; [discriminate|].
  rewrite map_res_cons in H.
  destruct (f x) as [y|e'] eqn:Ex; cbn [bind] in H.
  - destruct (map_res f l) as [zs|e'] eqn:El; cbn [bind] in H; [discriminate|].
    inversion H; subst. destruct IH as (z & Hz & Ez); [reflexivity|]. exists z; split; [right; assumption|assumption].
  - inversion H; subst. exists x; split; [left; reflexivity|assumption].
Qed.

Lemma map_res_app {A B} (f : A -> res B) l r :
  map_res f (l ++ r) = (do x <- map_res f l; do y <- map_res f r; Ok (x ++ y)).
Proof.
  induction l as [|a l IH].
  - cbn [app map_res bind]. destruct (map_res f r); reflexivity.
  - cbn [app]. rewrite !map_res_cons, IH. destruct (f a); cbn [bind]; [|reflexivity].
    destruct (map_res f l); cbn [bind]; [|reflexivity].
    destruct (map_res f r); reflexivity.
Qed.

(** * Association lists keyed by atoms *)
Lemma assoc_a_cons {A} k x (v : A) r :
  assoc_a k ((x, v) :: r) = if atom_eq_dec x k then Some v else assoc_a k r.
Proof. reflexivity. Qed.

Lemma assoc_a_map {A B} (g : A -> B) k (l : list (atom * A)) :
  assoc_a k (map (fun kv => (fst kv, g (snd kv))) l) = option_map g (assoc_a k l).
Proof.
  induction l as [|[x v] l IH]; [reflexivity|].
  cbn [map fst snd]. rewrite !assoc_a_cons. destruct (atom_eq_dec x k); [reflexivity|apply IH].
Qed.

Lemma assoc_a_none {A} k (l : list (atom * A)) : assoc_a k l = None <-> ~ In k (map fst l).
Proof.
  induction l as [|[x v] l IH]; [split; [intros _ []|reflexivity]|].
  rewrite assoc_a_cons. cbn [map fst]. destruct (atom_eq_dec x k) as [->|N].
  - split; [discriminate|intro H; exfalso; apply H; left; reflexivity].
  - rewrite IH. split; [intros H [->|H']; [apply N; reflexivity|apply H; assumption] | intros H H'; apply H; right; assumption].
Qed.

Lemma assoc_a_in {A} k (v : A) (l : list (atom * A)) : assoc_a k l = Some v -> In (k, v) l.
Proof.
  induction l as [|[x w] l IH]; [discriminate|].
  rewrite assoc_a_cons. destruct (atom_eq_dec x k) as [->|N]; intro H; [inversion H; left; reflexivity|right; apply IH; assumption].
Qed.

(** * The shape of [deser] *)
Section Deser.
Variable E : env.
Variable V : bool.

Definition lkids (p : pser) : list (pser * ((expect -> res val) * (tcls -> res val))) :=
  match p with PList l => map (fun q => (q, deser_z E V q)) l | _ => [] end.
Definition dkids (p : pser) : list (atom * ((expect -> res val) * (tcls -> res val))) :=
  match p with PDict d => map (fun kq => (fst kq, deser_z E V (snd kq))) d | _ => [] end.
Definition deser_obj (p : pser) (c : tcls) : res val := snd (deser_z E V p) c.

Lemma deser_obj_eq p c : deser_obj p c = de_object E V p (dkids p) (deser E V p XNone) c.
Proof.
  unfold deser_obj, deser. destruct p as [a|l|d]; [destruct a|..]; reflexivity.
Qed.

Lemma deser_eq p x : p <> PAtom ANone ->
  deser E V p x = check V (inner_expected E V p (lkids p) (dkids p) (deser_obj p) x).
Proof.
  intro H. unfold deser. destruct p as [a|l|d]; [destruct a|..]; try reflexivity.
  congruence.
Qed.

Lemma deser_none x : deser E V (PAtom ANone) x = Ok (VAtom ANone).
Proof. reflexivity. Qed.

Lemma de_atomic_same a : de_atomic E (PAtom a) (aty_of a) = Ok (VAtom a).
Proof. unfold de_atomic. destruct (aty_eq_dec (aty_of a) (aty_of a)); [reflexivity|congruence]. Qed.

Lemma deser_atom a : deser E V (PAtom a) XNone = Ok (VAtom a).
Proof.
  destruct (atom_eq_dec a ANone) as [->|N]; [reflexivity|].
  rewrite deser_eq by congruence. cbn [inner_expected inner_none]. rewrite de_atomic_same. reflexivity.
Qed.

Lemma de_list_eq l : de_list (lkids (PList l)) = (do vs <- map_res (fun q => deser E V q XNone) l; Ok (VList vs)).
Proof.
  unfold de_list, lkids. rewrite map_res_map. cbn [fst snd].
  erewrite map_res_ext; [reflexivity|]. intros x _. cbn beta. destruct x; [rewrite deser_atom; reflexivity|reflexivity|reflexivity].
Qed.

Lemma de_dict_eq d : de_dict (dkids (PDict d)) =
  (do vs <- map_res (fun kq => do v <- deser E V (snd kq) XNone; Ok (fst kq, v)) d; Ok (VDict vs)).
Proof. unfold de_dict, dkids. rewrite map_res_map. reflexivity. Qed.

Lemma deser_list l : deser E V (PList l) XNone =
  (do vs <- map_res (fun q => deser E V q XNone) l; Ok (VList vs)).
Proof.
  rewrite deser_eq by congruence. cbn [inner_expected inner_none]. rewrite de_list_eq.
  destruct (map_res _ l); reflexivity.
Qed.

Lemma deser_dict d : assoc_a (AStr SER_TYPE) d = None -> deser E V (PDict d) XNone =
  (do vs <- map_res (fun kq => do v <- deser E V (snd kq) XNone; Ok (fst kq, v)) d; Ok (VDict vs)).
Proof.
  intro H. rewrite deser_eq by congruence. cbn [inner_expected inner_none]. rewrite H, de_dict_eq.
  destruct (map_res _ d); reflexivity.
Qed.

Lemma assoc_typed_type t q : assoc_a (AStr SER_TYPE) [(AStr SER_TYPE, PAtom (AStr t)); (AStr SER_CONTENT, q)] = Some (PAtom (AStr t)).
Proof. reflexivity. Qed.

Lemma deser_typed t q : deser E V (typed t q) XNone =
  check V (match str2type E t with
           | None => Ok (VInvalid (IUndeser None ($"Unregistered type stored in serialized.") q (Some t)))
           | Some c => deser_obj q c
           end).
Proof.
  rewrite deser_eq by discriminate. unfold inner_expected, inner_none, typed.
  rewrite assoc_typed_type. destruct (str2type E t); reflexivity.
Qed.
End Deser.

Lemma str2type_user E t c : ~ In t reserved_names -> e_types E t = Some c -> str2type E t = Some (CUser c).
Proof.
  intros H H1. unfold str2type, reserved_names, marker_names in *.
  repeat match goal with |- context [str_eq_dec ?a ?b] => destruct (str_eq_dec a b) as [->|]; [exfalso; apply H; cbn [In]; tauto|] end.
  rewrite H1; reflexivity.
Qed.

Lemma str2type_none E t : ~ In t reserved_names -> e_types E t = None -> str2type E t = None.
Proof.
  intros H H1. unfold str2type, reserved_names, marker_names in *.
  repeat match goal with |- context [str_eq_dec ?a ?b] => destruct (str_eq_dec a b) as [->|]; [exfalso; apply H; cbn [In]; tauto|] end.
  rewrite H1; reflexivity.
Qed.

Lemma str2type_not_user E t c : str2type E t = Some (CUser c) -> ~ In t reserved_names /\ e_types E t = Some c.
Proof.
  unfold str2type. intro H.
  repeat match type of H with context [str_eq_dec ?a ?b] => destruct (str_eq_dec a b); [discriminate|] end.
  destruct (e_types E t); [|discriminate]. inversion H; subst. split; [|reflexivity].
  unfold reserved_names, marker_names; cbn [In]. intuition congruence.
Qed.

Lemma obj_type_registered E c t : registered E c t -> obj_type E c = Some t.
Proof.
  intros (H1 & H2 & H3 & H4). unfold obj_type. rewrite H2, H1. cbn [is_type_str].
  rewrite (str2type_user E t c) by assumption. reflexivity.
Qed.

(** * JSON *)
Lemma assoc_set_new {A} k (v : A) l : ~ In k (map fst l) -> assoc_set k v l = l ++ [(k, v)].
Proof.
  induction l as [|[x w] l IH]; intro H; [reflexivity|].
  cbn [assoc_set]. destruct (str_eq_dec x k) as [->|]; [exfalso; apply H; left; reflexivity|].
  rewrite IH; [reflexivity|]. intro; apply H; right; assumption.
Qed.

Lemma json_object_nodup_aux {A} (d acc : list (str * A)) :
  NoDup (map fst (acc ++ d)) ->
  fold_left (fun acc kv => assoc_set (fst kv) (snd kv) acc) d acc = acc ++ d.
Proof.
  revert acc; induction d as [|[k v] d IH]; intros acc H; [symmetry; apply app_nil_r|].
  cbn [fold_left fst snd]. rewrite assoc_set_new.
  - rewrite IH; rewrite <- app_assoc; [reflexivity|exact H].
  - rewrite map_app in H. cbn [map fst] in H. apply NoDup_remove_2 in H.
    intro; apply H; apply in_or_app; left; assumption.
Qed.

Lemma json_object_nodup {A} (d : list (str * A)) : NoDup (map fst d) -> json_object d = d.
Proof. intro H. unfold json_object. rewrite json_object_nodup_aux; [reflexivity|exact H]. Qed.

Lemma of_json_atom a : of_json (json_atom a) = PAtom a.
Proof. destruct a; reflexivity. Qed.

Lemma NoDup_map_inj {A B} (f : A -> B) l :
  (forall x y, In x l -> In y l -> f x = f y -> x = y) -> NoDup l -> NoDup (map f l).
Proof.
  induction l as [|x l IH]; intros Hf H; [constructor|].
  inversion H; subst. cbn [map]. constructor.
  - rewrite in_map_iff. intros (y & Hy & Iy). apply H2.
    rewrite (Hf x y); [assumption|left; reflexivity|right; assumption|congruence].
  - apply IH; [|assumption]. intros; apply Hf; [right; assumption|right; assumption|assumption].
Qed.

Lemma through_json_ready fr p : json_ready p -> through_json fr p = p.
Proof.
  induction p as [a|l IH|d IH] using pser_ind'; intro H.
  - apply of_json_atom.
  - inversion H; subst. unfold through_json in *. cbn [to_json of_json]. f_equal.
    rewrite map_map. rewrite <- (map_id l) at 2. apply map_ext_in. intros x Hx. apply IH; auto.
  - inversion H as [| |d' Hk Hn Hv]; subst. unfold through_json in *. cbn [to_json of_json]. f_equal.
    rewrite json_object_nodup.
    + rewrite map_map. rewrite <- (map_id d) at 2. apply map_ext_in. intros [k x] Hx. cbn [fst snd].
      destruct (Hk k x Hx) as (s & ->). cbn [json_key]. f_equal. eapply IH; eauto.
    + rewrite map_map. cbn [fst].
      rewrite <- (map_map fst (json_key fr)). apply NoDup_map_inj; [|assumption].
      intros x y Hx Hy. apply in_map_iff in Hx as ([k1 p1] & <- & Hx). apply in_map_iff in Hy as ([k2 p2] & <- & Hy).
      destruct (Hk _ _ Hx) as (s1 & E1). destruct (Hk _ _ Hy) as (s2 & E2). cbn [fst]. rewrite E1, E2. cbn [json_key]. congruence.
Qed.

(** * Round trip of plain data *)
Lemma Forall2_in_l {A B} (R : A -> B -> Prop) l r x :
  Forall2 R l r -> In x l -> exists y, In y r /\ R x y.
Proof.
  induction 1 as [|a b l r Hab H IH]; intros []; subst.
  - exists b; split; [left; reflexivity|assumption].
  - destruct IH as (y & Hy & Ry); [assumption|]. exists y; split; [right; assumption|assumption].
Qed.
Lemma Forall2_in_r {A B} (R : A -> B -> Prop) l r y :
  Forall2 R l r -> In y r -> exists x, In x l /\ R x y.
Proof.
  induction 1 as [|a b l r Hab H IH]; intros []; subst.
  - exists a; split; [left; reflexivity|assumption].
  - destruct IH as (x & Hx & Rx); [assumption|]. exists x; split; [right; assumption|assumption].
Qed.

(** What a plain value is serialized to. *)
Definition coded (E : env) (v : val) (p : pser) : Prop :=
  (forall V, ser E V false v = Ok p) /\ json_ready p /\ (forall V, deser E V p XNone = Ok (untuple v)) /\
  (forall V, ser E V false (untuple v) = Ok p).

Lemma assoc_in_nodup {A} k (v : A) l : NoDup (map fst l) -> In (k, v) l -> assoc k l = Some v.
Proof.
  induction l as [|[x w] l IH]; intros Hn Hi; [destruct Hi|].
  cbn [map fst] in Hn; inversion Hn; subst. cbn [assoc]. destruct (str_eq_dec x k) as [->|N].
  - destruct Hi as [Hi|Hi]; [inversion Hi; reflexivity|]. exfalso; apply H1. apply (in_map fst) in Hi; exact Hi.
  - destruct Hi as [Hi|Hi]; [inversion Hi; congruence|]. apply IH; assumption.
Qed.

Lemma assoc_in {A} k (v : A) l : assoc k l = Some v -> In (k, v) l.
Proof.
  induction l as [|[x w] l IH]; [discriminate|].
  cbn [assoc]. destruct (str_eq_dec x k) as [->|N]; intro H; [inversion H; left; reflexivity|right; apply IH; assumption].
Qed.

Lemma assoc_none_notin {A} k (l : list (str * A)) : assoc k l = None <-> ~ In k (map fst l).
Proof.
  induction l as [|[x v] l IH]; [split; [intros _ []|reflexivity]|].
  cbn [assoc map fst]. destruct (str_eq_dec x k) as [->|N].
  - split; [discriminate|intro H; exfalso; apply H; left; reflexivity].
  - rewrite IH. split; [intros H [->|H']; [apply N; reflexivity|apply H; assumption] | intros H H'; apply H; right; assumption].
Qed.

Lemma assoc_map {A B} (g : A -> B) k (l : list (str * A)) :
  assoc k (map (fun kv => (fst kv, g (snd kv))) l) = option_map g (assoc k l).
Proof.
  induction l as [|[x v] l IH]; [reflexivity|].
  cbn [map fst snd assoc]. destruct (str_eq_dec x k); [reflexivity|apply IH].
Qed.

Lemma instance_names fds fs : instance_of fds fs -> map fst fs = map f_name fds.
Proof.
  intros (_ & H). induction H as [|f kv fds fs (H1 & _) H IH]; [reflexivity|].
  cbn [map]. rewrite H1, IH; reflexivity.
Qed.

(** The serialized fields, as a list. *)
Inductive enc_fields (E : env) : list field -> list (str * val) -> list (atom * pser) -> Prop :=
| ef_nil : enc_fields E [] [] []
| ef_skip f kv fds fs ps : f_noser f = true -> enc_fields E fds fs ps -> enc_fields E (f :: fds) (kv :: fs) ps
| ef_take f k v p fds fs ps : f_noser f = false -> f_name f = k -> coded E v p ->
    enc_fields E fds fs ps -> enc_fields E (f :: fds) ((k, v) :: fs) ((AStr k, p) :: ps).

Lemma enc_fields_exist E fds fs :
  Forall2 (fun f kv => fst kv = f_name f) fds fs ->
  (forall f k x, In (f, (k, x)) (combine fds fs) -> f_noser f = false -> exists p, coded E x p) ->
  exists ps, enc_fields E fds fs ps.
Proof.
  induction 1 as [|f [k v] fds fs Hf H IH]; intro Hc; [exists []; constructor|].
  destruct IH as (ps & Hps); [intros; eapply Hc; [right; eassumption|assumption]|].
  destruct (f_noser f) eqn:Ef.
  - exists ps. constructor; assumption.
  - destruct (Hc f k v) as (p & Hp); [left; reflexivity|assumption|]. exists ((AStr k, p) :: ps).
    apply ef_take; auto.
Qed.

Lemma enc_fields_keys E fds fs ps : enc_fields E fds fs ps ->
  forall k x, In (k, x) ps -> exists s, k = AStr s /\ In s (map f_name fds).
Proof.
  induction 1; intros k0 x0 Hi.
  - destruct Hi.
  - destruct (IHenc_fields _ _ Hi) as (s & ? & ?). exists s; split; [assumption|right; assumption].
  - destruct Hi as [Hi|Hi].
    + inversion Hi; subst. exists (f_name f); split; [reflexivity|left; reflexivity].
    + destruct (IHenc_fields _ _ Hi) as (s & ? & ?). exists s; split; [assumption|right; assumption].
Qed.

Lemma enc_fields_ready E fds fs ps : NoDup (map f_name fds) -> enc_fields E fds fs ps -> json_ready (PDict ps).
Proof.
  intros Hn H. constructor.
  - intros k x Hi. destruct (enc_fields_keys _ _ _ _ H _ _ Hi) as (s & ? & _). exists s; assumption.
  - induction H.
    + constructor.
    + apply IHenc_fields. inversion Hn; assumption.
    + cbn [map fst]. inversion Hn; subst. constructor; [|apply IHenc_fields; assumption].
      intro Hi. apply in_map_iff in Hi as ([k' x'] & Hk' & Hi). cbn [fst] in Hk'; subst.
      destruct (enc_fields_keys _ _ _ _ H2 _ _ Hi) as (s & Hs & Is). inversion Hs; subst. contradiction.
  - clear Hn. induction H; intros k0 x0 Hi.
    + destruct Hi.
    + eapply IHenc_fields; eassumption.
    + destruct Hi as [Hi|Hi]; [inversion Hi; subst; apply H1|eapply IHenc_fields; eassumption].
Qed.

Lemma enc_fields_ser E V fds fs ps : enc_fields E fds fs ps -> 
  forall all, (forall k v, In (k, v) fs -> assoc k all = Some (ser E V false v)) ->
  ser_fields fds all = Ok ps.
Proof.
  induction 1; intros all Ha.
  - reflexivity.
  - cbn [ser_fields]. rewrite H. apply IHenc_fields. intros; apply Ha; right; assumption.
  - cbn [ser_fields]. rewrite H. rewrite (Ha (f_name f) v) by (left; congruence).
    destruct H1 as (H1 & _). rewrite H1. cbn [bind].
    rewrite IHenc_fields by (intros; apply Ha; right; assumption). cbn [bind]. rewrite H0. reflexivity.
Qed.

Lemma enc_fields_ser_untuple E V fds fs ps : enc_fields E fds fs ps -> 
  forall all, (forall k v, In (k, v) fs -> assoc k all = Some (ser E V false (untuple v))) ->
  ser_fields fds all = Ok ps.
Proof.
  induction 1; intros all Ha.
  - reflexivity.
  - cbn [ser_fields]. rewrite H. apply IHenc_fields. intros; apply Ha; right; assumption.
  - cbn [ser_fields]. rewrite H. rewrite (Ha (f_name f) v) by (left; congruence).
    destruct H1 as (_ & _ & _ & H1). rewrite H1. cbn [bind].
    rewrite IHenc_fields by (intros; apply Ha; right; assumption). cbn [bind]. rewrite H0. reflexivity.
Qed.

Fixpoint args_of (fds : list field) (fs : list (str * val)) : list (str * val) :=
  match fds, fs with
  | f :: fds, kv :: fs => if f_noser f then args_of fds fs else (fst kv, untuple (snd kv)) :: args_of fds fs
  | _, _ => []
  end.

Lemma enc_fields_args E V fds fs ps : enc_fields E fds fs ps ->
  (do vs <- map_res (fun kz => do v <- deser E V (snd kz) XNone; Ok (fst kz, v)) ps;
   map_res (fun kv => do k <- str_key (fst kv); Ok (k, snd kv)) vs) = Ok (args_of fds fs).
Proof.
  intro H.
  assert (G : exists vs, map_res (fun kz => do v <- deser E V (snd kz) XNone; Ok (fst kz, v)) ps = Ok vs
              /\ map_res (fun kv : atom * val => do k <- str_key (fst kv); Ok (k, snd kv)) vs = Ok (args_of fds fs)).
  { induction H.
    - exists []; split; reflexivity.
    - destruct IHenc_fields as (vs & H1 & H2). exists vs; split; [assumption|].
      cbn [args_of]. rewrite H. assumption.
    - destruct IHenc_fields as (vs & G1 & G2). exists ((AStr k, untuple v) :: vs). split.
      + rewrite map_res_cons. cbn [fst snd]. destruct H1 as (_ & _ & H1 & _). rewrite H1. cbn [bind]. rewrite G1. reflexivity.
      + rewrite map_res_cons. cbn [fst snd str_key bind]. rewrite G2. cbn [bind args_of]. rewrite H. reflexivity. }
  destruct G as (vs & G1 & G2). rewrite G1. cbn [bind]. assumption.
Qed.

Lemma args_of_in fds fs k v : In (k, v) (args_of fds fs) ->
  exists f x, In (f, (k, x)) (combine fds fs) /\ v = untuple x /\ f_noser f = false.
Proof.
  revert fs; induction fds as [|f fds IH]; intros [|[k0 x0] fs] H; cbn [args_of] in H; try destruct H.
  destruct (f_noser f) eqn:Ef.
  - destruct (IH _ H) as (g & x & Hg & ?). exists g, x. split; [right; assumption|assumption].
  - destruct H as [H|H].
    + inversion H; subst. exists f, x0. repeat split; [left; reflexivity|assumption].
    + destruct (IH _ H) as (g & x & Hg & ?). exists g, x. split; [right; assumption|assumption].
Qed.

Lemma args_of_keys fds fs k : Forall2 (fun f kv => fst kv = f_name f) fds fs ->
  In k (map fst (args_of fds fs)) -> In k (map f_name fds).
Proof.
  induction 1 as [|f [k0 v0] fds fs Hf H IH]; intro Hi; [destruct Hi|].
  cbn [args_of] in Hi. cbn [map]. destruct (f_noser f); [right; apply IH; assumption|].
  destruct Hi as [Hi|Hi]; [left; cbn [fst] in *; congruence|right; apply IH; assumption].
Qed.

Lemma build_ok fds fs : forall args,
  Forall2 (fun f kv => fst kv = f_name f /\ f_init f = true /\
             (f_noser f = true -> f_default f = Some (snd kv) /\ untuple (snd kv) = snd kv)) fds fs ->
  (forall f kv, In (f, kv) (combine fds fs) ->
     assoc (f_name f) args = if f_noser f then None else Some (untuple (snd kv))) ->
  build fds args = Ok (map (fun kv => (fst kv, untuple (snd kv))) fs).
Proof.
  intros args H. induction H as [|f [k v] fds fs (H1 & H2 & H3) H IH]; intro Ha; [reflexivity|].
  cbn [build]. rewrite IH by (intros; apply Ha; right; assumption). cbn [bind].
  rewrite H2. rewrite (Ha f (k, v)) by (left; reflexivity). cbn [fst snd map] in *. subst k.
  destruct (f_noser f).
  - destruct H3 as (H3 & H4); [reflexivity|]. rewrite H3, H4. reflexivity.
  - reflexivity.
Qed.

Lemma args_of_assoc fds fs : NoDup (map f_name fds) ->
  Forall2 (fun f kv => fst kv = f_name f) fds fs ->
  forall f kv, In (f, kv) (combine fds fs) ->
     assoc (f_name f) (args_of fds fs) = if f_noser f then None else Some (untuple (snd kv)).
Proof.
  intros Hn H. induction H as [|f [k v] fds fs Hf H IH]; intros g kv Hi; [destruct Hi|].
  cbn [map] in Hn; inversion Hn; subst. cbn [fst] in Hf; subst k.
  destruct Hi as [Hi|Hi].
  - inversion Hi; subst. cbn [args_of fst snd]. destruct (f_noser g).
    + apply assoc_none_notin. intro; apply H2. eapply args_of_keys; eassumption.
    + cbn [assoc]. destruct (str_eq_dec (f_name g) (f_name g)); [reflexivity|congruence].
  - assert (f_name f <> f_name g).
    { intro He. apply H2. rewrite He. apply in_map. apply in_combine_l in Hi; exact Hi. }
    cbn [args_of fst snd]. destruct (f_noser f); [apply IH; assumption|].
    cbn [assoc]. destruct (str_eq_dec (f_name f) (f_name g)); [congruence|apply IH; assumption].
Qed.

Lemma member_in k l : member k l = true <-> In k l.
Proof.
  unfold member. destruct (in_dec str_eq_dec k l); split; intro; try tauto; try congruence.
Qed.

Lemma construct_ok fds fs : instance_of fds fs ->
  construct fds (args_of fds fs) = Ok (map (fun kv => (fst kv, untuple (snd kv))) fs).
Proof.
  intros (Hn & H). assert (Hw : Forall2 (fun f kv => fst kv = f_name f) fds fs).
  { clear Hn. induction H as [|f kv fds fs (H1 & _) H IH]; constructor; assumption. }
  unfold construct. replace (forallb _ _) with true.
  - apply build_ok; [assumption|apply args_of_assoc; assumption].
  - symmetry. apply forallb_forall. intros [k v] Hi. cbn [fst].
    apply member_in. apply args_of_in in Hi as (f & x & Hi & _).
    unfold init_names. apply in_map_iff. exists f.
    clear Hn Hw. induction H as [|f0 kv0 fds fs (H1 & H2 & _) H IH]; [destruct Hi|].
    destruct Hi as [Hi|Hi].
    + inversion Hi; subst. cbn [fst] in H1. split; [congruence|]. cbn [filter]. rewrite H2; left; reflexivity.
    + destruct (IH Hi) as (G1 & G2). split; [assumption|]. cbn [filter]. rewrite H2. right; assumption.
Qed.

Lemma check_valid V v : (forall i, v <> VInvalid i) -> check V (Ok v) = Ok v.
Proof. intro H. unfold check; cbn [bind]. destruct v; try reflexivity. exfalso; eapply H; reflexivity. Qed.

Lemma instance_weak fds fs : instance_of fds fs -> Forall2 (fun f kv => fst kv = f_name f) fds fs.
Proof. intros (_ & H). induction H as [|f kv fds fs (H1 & _) H IH]; constructor; assumption. Qed.

(** The content of a dataclass instance. *)
Lemma coded_content E c t fds fs ps :
  registered E c t -> c_kind (e_class E c) = KData fds -> instance_of fds fs -> enc_fields E fds fs ps ->
  (forall V co, ser E V co (VObj c fs) = Ok (emit co (t, PDict ps))) /\
  (forall V co, ser E V co (untuple (VObj c fs)) = Ok (emit co (t, PDict ps))) /\
  (forall V, deser_obj E V (PDict ps) (CUser c) = Ok (untuple (VObj c fs))).
Proof.
  intros Hr Hk Hi He. assert (Hn : NoDup (map fst fs)) by (rewrite (instance_names _ _ Hi); apply Hi).
  pose proof Hr as (R1 & R2 & R3 & R4). split; [|split].
  - intros V co. cbn [ser]. rewrite (obj_type_registered E c t) by assumption.
    unfold obj_content. rewrite R2, Hk.
    rewrite (enc_fields_ser E V fds fs ps) by
      (try assumption; intros k v Hin; rewrite assoc_map, (assoc_in_nodup k v fs) by assumption; reflexivity).
    reflexivity.
  - intros V co. cbn [untuple ser]. rewrite (obj_type_registered E c t) by assumption.
    unfold obj_content. rewrite R2, Hk. rewrite map_map. cbn [fst snd].
    rewrite (enc_fields_ser_untuple E V fds fs ps).
    + reflexivity.
    + assumption.
    + intros k v Hin. rewrite (assoc_map (fun x => ser E V false (untuple x)) k fs), (assoc_in_nodup k v fs) by assumption. reflexivity.
  - intro V. rewrite deser_obj_eq. unfold de_object. rewrite R2, Hk.
    unfold dkids. rewrite map_res_map. cbn [fst snd].
    pose proof (enc_fields_args E V fds fs ps He) as Ha. unfold deser in Ha.
    destruct (map_res _ ps) as [vs|e]; cbn [bind] in Ha |- *; [|discriminate].
    rewrite Ha. cbn [bind]. rewrite construct_ok by assumption. reflexivity.
Qed.

Lemma inst_name_in l i n : inst_name l i = Some n -> In (n, i) l.
Proof.
  induction l as [|[m j] l IH]; [discriminate|]. cbn [inst_name].
  destruct (Nat.eqb_spec i j) as [->|]; intro H; [inversion H; left; reflexivity|right; apply IH; assumption].
Qed.
Lemma inst_name_some l i n : In (n, i) l -> exists m, inst_name l i = Some m.
Proof.
  induction l as [|[m j] l IH]; intros []; cbn [inst_name].
  - inversion H; subst. rewrite Nat.eqb_refl. eexists; reflexivity.
  - destruct (Nat.eqb i j); [eexists; reflexivity|apply IH; assumption].
Qed.

Lemma last_name_app a b : ~ In "."%char b -> last_name (a ++ "."%char :: b) = b.
Proof.
  intro H. unfold last_name.
  set (go := fix go (cur s : str) : str :=
     match s with
     | [] => cur
     | c :: r => if ascii_dec c "." then go [] r else go (cur ++ [c]) r
     end).
  assert (G : forall b, ~ In "."%char b -> forall cur, go cur b = cur ++ b).
  { clear. induction b as [|c b IH]; intros H cur; cbn [go]; [symmetry; apply app_nil_r|].
    destruct (ascii_dec c ".") as [->|]; [exfalso; apply H; left; reflexivity|].
    rewrite IH by (intro; apply H; right; assumption). rewrite <- app_assoc; reflexivity. }
  assert (forall cur, go cur (a ++ "."%char :: b) = b) as K; [|apply K].
  induction a as [|c a IH]; intro cur; cbn [app go].
  - destruct (ascii_dec "." "."); [rewrite G by assumption; reflexivity|congruence].
  - destruct (ascii_dec c "."); apply IH.
Qed.

Lemma typed_ready t p : json_ready p -> json_ready (typed t p).
Proof.
  intro H. unfold typed. constructor.
  - intros k x [Hi|[Hi|[]]]; inversion Hi; subst; eexists; reflexivity.
  - cbn [map fst]. repeat constructor; cbn [In]; intuition discriminate.
  - intros k x [Hi|[Hi|[]]]; inversion Hi; subst; [constructor|assumption].
Qed.

Lemma forall2_map_eq {A B} (R : A -> B -> Prop) (f : A -> res B) l r :
  (forall x y, R x y -> f x = Ok y) -> Forall2 R l r -> map_res f l = Ok r.
Proof.
  intros H F. apply map_res_forall2. induction F; constructor; auto.
Qed.

Lemma plain_coded E v : plain E v -> exists p, coded E v p.
Proof.
  induction v as [a|l IH|l IH|d IH|c fs IH|c m|i|i] using val_ind'; intro H.
  - exists (PAtom a). split; [reflexivity|]. split; [constructor|]. split; [intro V; apply deser_atom|reflexivity].
  - inversion H as [|l' Hl| | | | |]; subst.
    destruct (map_res_rel (fun x => ser E false false x) (coded E) l) as (ps & _ & Hps).
    { intros x Hx. destruct (IH x Hx (Hl x Hx)) as (p & Hp). exists p; split; [apply Hp|assumption]. }
    exists (PList ps). repeat split.
    + intro V. cbn [ser]. rewrite (forall2_map_eq (coded E) _ l ps); [reflexivity|intros x y Hxy; apply Hxy|assumption].
    + constructor. intros p Hp. destruct (Forall2_in_r _ _ _ _ Hps Hp) as (x & _ & Hx). apply Hx.
    + intro V. rewrite deser_list.
      assert (G : map_res (fun q => deser E V q XNone) ps = Ok (map untuple l)).
      { apply map_res_forall2. clear -Hps. induction Hps; constructor; [apply H|assumption]. }
      rewrite G. reflexivity.
    + intro V. cbn [untuple ser]. rewrite map_res_map.
      rewrite (forall2_map_eq (coded E) _ l ps); [reflexivity|intros x y Hxy; apply Hxy|assumption].
  - inversion H as [| |l' Hl| | | |]; subst.
    destruct (map_res_rel (fun x => ser E false false x) (coded E) l) as (ps & _ & Hps).
    { intros x Hx. destruct (IH x Hx (Hl x Hx)) as (p & Hp). exists p; split; [apply Hp|assumption]. }
    exists (PList ps). repeat split.
    + intro V. cbn [ser]. rewrite (forall2_map_eq (coded E) _ l ps); [reflexivity|intros x y Hxy; apply Hxy|assumption].
    + constructor. intros p Hp. destruct (Forall2_in_r _ _ _ _ Hps Hp) as (x & _ & Hx). apply Hx.
    + intro V. rewrite deser_list.
      assert (G : map_res (fun q => deser E V q XNone) ps = Ok (map untuple l)).
      { apply map_res_forall2. clear -Hps. induction Hps; constructor; [apply H|assumption]. }
      rewrite G. reflexivity.
    + intro V. cbn [untuple ser]. rewrite map_res_map.
      rewrite (forall2_map_eq (coded E) _ l ps); [reflexivity|intros x y Hxy; apply Hxy|assumption].
  - inversion H as [| | |d' Hk Hn Hv| | |]; subst.
    assert (G : exists ps, Forall2 (fun kv kp => fst kv = fst kp /\ coded E (snd kv) (snd kp)) d ps).
    { clear Hk Hn H. revert IH Hv. induction d as [|[k x] d IHd]; intros IH Hv; [exists []; constructor|].
      destruct IHd as (ps & Hps); [intros; eapply IH; [right; eassumption|assumption]|intros; eapply Hv; right; eassumption|].
      destruct (IH k x) as (p & Hp); [left; reflexivity|eapply Hv; left; reflexivity|].
      exists ((k, p) :: ps). constructor; [split; [reflexivity|assumption]|assumption]. }
    destruct G as (ps & Hps). exists (PDict ps).
    assert (Hf : map fst ps = map fst d).
    { clear -Hps. induction Hps as [|x y ? ? (H1 & _)]; [reflexivity|]. cbn [map]; congruence. }
    repeat split.
    + intro V. cbn [ser].
      rewrite (forall2_map_eq (fun kv kp => fst kv = fst kp /\ coded E (snd kv) (snd kp)) _ d ps); [reflexivity| |assumption].
      intros [k x] [k' p] (H1 & H2). cbn [fst snd] in *. destruct H2 as (H2 & _). rewrite H2. cbn [bind]. congruence.
    + constructor.
      * intros k p Hp. destruct (Forall2_in_r _ _ _ _ Hps Hp) as ([k' x] & Hin & (H1 & _)). cbn [fst] in H1; subst.
        destruct (Hk _ _ Hin) as (s & ? & _). exists s; assumption.
      * rewrite Hf; assumption.
      * intros k p Hp. destruct (Forall2_in_r _ _ _ _ Hps Hp) as ([k' x] & Hin & (_ & H2)). apply H2.
    + intro V. rewrite deser_dict.
      * assert (G : map_res (fun kq => do v <- deser E V (snd kq) XNone; Ok (fst kq, v)) ps
                    = Ok (map (fun kv => (fst kv, untuple (snd kv))) d)).
        { apply map_res_forall2. clear -Hps. induction Hps as [|x y ? ? (H1 & H2)]; constructor; [|assumption].
          destruct H2 as (_ & _ & H2 & _). rewrite H2. cbn [bind]. congruence. }
        rewrite G. reflexivity.
      * apply assoc_a_none. rewrite Hf. intro Hin. apply in_map_iff in Hin as ([k x] & Hk' & Hin). cbn [fst] in Hk'; subst.
        destruct (Hk _ _ Hin) as (s & He & Hs). inversion He; congruence.
    + intro V. cbn [untuple ser]. rewrite map_res_map. cbn [fst snd].
      rewrite (forall2_map_eq (fun kv kp => fst kv = fst kp /\ coded E (snd kv) (snd kp)) _ d ps); [reflexivity| |assumption].
      intros [k x] [k' p] (H1 & H2). cbn [fst snd] in *. destruct H2 as (_ & _ & _ & H2). rewrite H2. cbn [bind]. congruence.
  - inversion H as [| | | |c' t fds fs' Hr Hk Hi Hp| |]; subst.
    destruct (enc_fields_exist E fds fs) as (ps & Hps).
    { apply instance_weak; assumption. }
    { intros f k x Hin Hs. eapply IH; [|eapply Hp; eassumption]. apply in_combine_r in Hin; eassumption. }
    destruct (coded_content E c t fds fs ps) as (C1 & C1' & C2); try assumption.
    exists (typed t (PDict ps)). repeat split.
    + intro V. apply (C1 V false).
    + apply typed_ready. eapply enc_fields_ready; [apply Hi|eassumption].
    + intro V. rewrite deser_typed. destruct Hr as (R1 & R2 & R3 & R4).
      rewrite (str2type_user E t c) by assumption. rewrite C2. apply check_valid; intros; discriminate.
    + intro V. apply (C1' V false).
  - inversion H as [| | | | | |c' t ms m' Hr Hk Hm Hd]; subst. pose proof Hr as (R1 & R2 & R3 & R4).
    exists (typed t (PAtom (AStr (c_name (e_class E c) ++ $"." ++ m)))). repeat split.
    + intro V. cbn [ser]. rewrite (obj_type_registered E c t) by assumption. rewrite R2, Hk. reflexivity.
    + apply typed_ready; constructor.
    + intro V. rewrite deser_typed, (str2type_user E t c) by assumption.
      rewrite deser_obj_eq. unfold de_object. rewrite R2, Hk.
      change ($"." ++ m) with ("."%char :: m). rewrite last_name_app by assumption.
      rewrite (proj2 (member_in m ms)) by assumption. reflexivity.
    + intro V. cbn [untuple ser]. rewrite (obj_type_registered E c t) by assumption. rewrite R2, Hk. reflexivity.
  - inversion H as [| | | | |n i' Hn Hin|]; subst.
    destruct (inst_name_some _ _ _ Hin) as (m & Hm).
    exists (typed n_instance (PAtom (AStr m))). repeat split.
    + intro V. cbn [ser]. rewrite Hm. reflexivity.
    + apply typed_ready; constructor.
    + intro V. rewrite deser_typed. change (str2type E n_instance) with (Some CInstance). cbv iota beta.
      rewrite deser_obj_eq. unfold de_object, call_de.
      rewrite (assoc_in_nodup m i) by (try assumption; apply inst_name_in; assumption). reflexivity.
    + intro V. cbn [untuple ser]. rewrite Hm. reflexivity.
  - inversion H.
Qed.
