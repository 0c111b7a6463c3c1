(** Property C92: numpy scalars and other atomic aliases in JSON files. *)
From Coq Require Import Ascii String List Bool Arith ZArith Lia.
From Verif Require Import Base FsModel SerialModel AliasModel.
Import ListNotations.

(** * The specification *)
(** The conversion in force for a type: the one registered last for exactly that type. *)
Definition in_force (h : list (nat * conv)) (ty : nat) (f : conv) : Prop :=
  exists before after, h = before ++ (ty, f) :: after /\ forall g, ~ In (ty, g) after.
Definition named_in (h : list (nat * conv)) (ty : nat) : Prop := exists f, In (ty, f) h.

Section Spec.
Variable W : world.
Variable h : list (nat * conv).
(** What is written for a value. *)
Inductive written : obj -> pser -> Prop :=
| wr_atom a : written (OAtom a) (PAtom a)
| wr_converted ty n f a : in_force h ty f -> f n = Ok a -> written (OObj ty n) (PAtom a)
| wr_lost ty n b : ~ named_in h ty -> In b (w_bases W ty) -> named_in h b ->
    written (OObj ty n) (PAtom (AStr ($"<un-serializable: " ++ w_qual W ty ++ $">")))
| wr_marked ty n : ~ named_in h ty -> (forall b, In b (w_bases W ty) -> ~ named_in h b) -> written (OObj ty n) (w_mark W ty)
| wr_mark ty : written (OMark ty) (w_mark W ty)
| wr_list l l' : written_list l l' -> written (OList l) (PList l')
| wr_dict d d' : written_dict d d' -> written (ODict d) (PDict d')
with written_list : list obj -> list pser -> Prop :=
| wl_nil : written_list [] []
| wl_cons o p l l' : written o p -> written_list l l' -> written_list (o :: l) (p :: l')
with written_dict : list (key * obj) -> list (atom * pser) -> Prop :=
| wd_nil : written_dict [] []
| wd_cons a o p d d' : written o p -> written_dict d d' -> written_dict ((KAtom a, o) :: d) ((a, p) :: d').

(** What stands in the way: an object used as a key, or a conversion that raises. *)
Inductive blocked : obj -> Prop :=
| bl_conv ty n f e : in_force h ty f -> f n = Exn e -> blocked (OObj ty n)
| bl_list l o : In o l -> blocked o -> blocked (OList l)
| bl_key d ty n o : In (KObj ty n, o) d -> blocked (ODict d)
| bl_dict d k o : In (k, o) d -> blocked o -> blocked (ODict d).
End Spec.
Scheme written_ind' := Induction for written Sort Prop
  with written_list_ind' := Induction for written_list Sort Prop
  with written_dict_ind' := Induction for written_dict Sort Prop.
Combined Scheme written_mut from written_ind', written_list_ind', written_dict_ind'.

(** * Registration *)
Lemma reg_types h : forall A, a_types (fold_left register_alias h A) = a_types A ++ map fst h.
Proof.
  induction h as [|c h IH]; intros A; cbn; [rewrite app_nil_r; reflexivity|]. rewrite IH. cbn. rewrite <- app_assoc. reflexivity.
Qed.
Lemma reg_convert h : forall A, a_convert (fold_left register_alias h A) = rev h ++ a_convert A.
Proof.
  induction h as [|[t f] h IH]; intros A; cbn; [reflexivity|]. rewrite IH. cbn. rewrite <- app_assoc. reflexivity.
Qed.
Lemma assoc_rev_some {X} n (h : list (nat * X)) f : assoc_n n (rev h) = Some f <->
  exists before after, h = before ++ (n, f) :: after /\ forall g, ~ In (n, g) after.
Proof.
  assert (A : forall l : list (nat * X), assoc_n n l = Some f <-> exists a b, l = a ++ (n, f) :: b /\ forall g, ~ In (n, g) a).
  { induction l as [|[m x] l IH]; cbn.
    - split; [discriminate|]. intros ([|? ?] & ? & H & _); discriminate.
    - destruct (Nat.eq_dec m n) as [->|Hm].
      + split.
        * intros H. inversion H; subst. exists [], l. split; [reflexivity|]. intros g [].
        * intros ([|y a] & b & H & Hn); inversion H; subst; [reflexivity|]. exfalso. apply (Hn x). left. reflexivity.
      + rewrite IH. split.
        * intros (a & b & -> & Hn). exists ((m, x) :: a), b. split; [reflexivity|]. intros g [Hg|Hg]; [inversion Hg; congruence|eapply Hn; eassumption].
        * intros ([|y a] & b & H & Hn); inversion H; subst; [congruence|]. exists a, b. split; [reflexivity|].
          intros g Hg. apply (Hn g). right. exact Hg. }
  rewrite A. split.
  - intros (a & b & H & Hn). exists (rev b), (rev a). split.
    + rewrite <- (rev_involutive h), H, rev_app_distr. cbn. rewrite <- app_assoc. reflexivity.
    + intros g Hg. apply in_rev in Hg. exact (Hn g Hg).
  - intros (a & b & -> & Hn). exists (rev b), (rev a). split.
    + rewrite rev_app_distr. cbn. rewrite <- app_assoc. reflexivity.
    + intros g Hg. apply in_rev in Hg. exact (Hn g Hg).
Qed.
Lemma assoc_none {X} n (h : list (nat * X)) : assoc_n n h = None <-> forall f, ~ In (n, f) h.
Proof.
  induction h as [|[m x] h IH]; cbn; [split; [intros _ f []|reflexivity]|]. destruct (Nat.eq_dec m n) as [->|Hm].
  - split; [discriminate|]. intros H. exfalso. apply (H x). left. reflexivity.
  - rewrite IH. split; intros H f; [intros [G|G]; [inversion G; congruence|exact (H f G)]|intros G; apply (H f); right; exact G].
Qed.

Section Proofs.
Variable W : world.
Variable h : list (nat * conv).
Let A := registered_aliases h.
Lemma A_types ty : In ty (a_types A) <-> named_in h ty.
Proof.
  unfold A, registered_aliases. rewrite reg_types. cbn. rewrite in_map_iff. unfold named_in. split.
  - intros ([t f] & <- & H). exists f. exact H.
  - intros (f & H). exists (ty, f). auto.
Qed.
Lemma A_conv ty f : assoc_n ty (a_convert A) = Some f <-> in_force h ty f.
Proof. unfold A, registered_aliases. rewrite reg_convert. cbn. rewrite app_nil_r. apply assoc_rev_some. Qed.
Lemma A_conv_none ty : assoc_n ty (a_convert A) = None <-> ~ named_in h ty.
Proof.
  unfold A, registered_aliases. rewrite reg_convert. cbn. rewrite app_nil_r, assoc_none. unfold named_in. split.
  - intros H (f & Hf). apply (H f). apply in_rev in Hf || apply -> in_rev in Hf. exact Hf.
  - intros H f Hf. apply H. exists f. apply in_rev. exact Hf.
Qed.
Lemma atomic_iff ty : atomic_ty W A ty = true <-> exists t, (t = ty \/ In t (w_bases W ty)) /\ named_in h t.
Proof.
  unfold atomic_ty. rewrite existsb_exists. split.
  - intros (t & H1 & H2). exists t. split; [destruct H1; [left; congruence|right; assumption]|]. apply A_types.
    destruct (in_dec _ _ _); [assumption|discriminate].
  - intros (t & H1 & H2). exists t. split; [destruct H1; [left; congruence|right; assumption]|]. apply A_types in H2.
    destruct (in_dec _ _ _); [reflexivity|contradiction].
Qed.
Lemma force_named ty f : in_force h ty f -> named_in h ty.
Proof. intros (a & b & -> & _). exists f. apply in_or_app. right. left. reflexivity. Qed.

Lemma map_res_ok {X Y} (f : X -> res Y) l l' : map_res f l = Ok l' <-> Forall2 (fun x y => f x = Ok y) l l'.
Proof.
  revert l'. induction l as [|x l IH]; intros l'; cbn [map_res]; fold (map_res f).
  - split; [intros H; inversion H; constructor|intros H; inversion H; reflexivity].
  - split.
    + destruct (f x) as [y|] eqn:E; cbn [bind]; [|discriminate]. destruct (map_res f l) as [r|]; cbn [bind]; [|discriminate].
      intros H. inversion H; subst. constructor; [exact E|]. apply IH. reflexivity.
    + intros H. inversion H as [|? y ? r H1 H2]; subst. rewrite H1. cbn [bind]. apply IH in H2. rewrite H2. reflexivity.
Qed.
Lemma map_res_exn {X Y} (f : X -> res Y) l e : map_res f l = Exn e -> exists x, In x l /\ f x = Exn e.
Proof.
  induction l as [|x l IH]; cbn [map_res]; fold (map_res f); [discriminate|]. destruct (f x) as [y|] eqn:E; cbn [bind].
  - destruct (map_res f l) as [r|]; cbn [bind]; [discriminate|]. intros H. destruct (IH H) as (z & H1 & H2). exists z. split; [right; exact H1|exact H2].
  - intros H. inversion H; subst. exists x. split; [left; reflexivity|exact E].
Qed.

Section ObjInd.
Variable P : obj -> Prop.
Hypothesis Ha : forall a, P (OAtom a).
Hypothesis Ho : forall ty n, P (OObj ty n).
Hypothesis Hl : forall l, Forall P l -> P (OList l).
Hypothesis Hd : forall d, Forall (fun kv => P (snd kv)) d -> P (ODict d).
Hypothesis Hm : forall ty, P (OMark ty).
Fixpoint obj_ind' (o : obj) : P o :=
  match o with
  | OAtom a => Ha a
  | OObj ty n => Ho ty n
  | OList l => Hl l ((fix go l : Forall P l := match l with [] => Forall_nil _ | x :: r => Forall_cons x (obj_ind' x) (go r) end) l)
  | ODict d => Hd d ((fix go d : Forall (fun kv : key * obj => P (snd kv)) d :=
                        match d with [] => Forall_nil _ | x :: r => Forall_cons x (obj_ind' (snd x)) (go r) end) d)
  | OMark ty => Hm ty
  end.
End ObjInd.

Lemma obj_written ty n p : save W A (OObj ty n) = Ok p <-> written W h (OObj ty n) p.
Proof.
  unfold save. cbn [ser bind]. destruct (atomic_ty W A ty) eqn:Ea.
  - apply atomic_iff in Ea as (t & Ht & Hn). cbn [dumps]. unfold default. destruct (assoc_n ty (a_convert A)) as [f|] eqn:Ef.
    + pose proof (proj1 (A_conv ty f) Ef) as Hf. split.
      * destruct (f n) as [a|] eqn:E; cbn [bind]; [|discriminate]. intros H. inversion H; subst. eapply wr_converted; eassumption.
      * intros H. inversion H as [|? ? g a Hg Hga|? ? b Hnn| ? ? Hnn| | |]; subst.
        -- apply A_conv in Hg. rewrite Ef in Hg. inversion Hg; subst. rewrite Hga. reflexivity.
        -- exfalso. apply Hnn. eapply force_named. eassumption.
        -- exfalso. apply Hnn. eapply force_named. eassumption.
    + pose proof (proj1 (A_conv_none ty) Ef) as Hnn. cbn [bind]. split.
      * intros H. inversion H; subst. destruct Ht as [->|Ht]; [contradiction|]. eapply wr_lost; eassumption.
      * intros H. inversion H as [|? ? g a Hg Hga|? ? b Hb| ? ? Hb Hbs| | |]; subst.
        -- exfalso. apply Hnn. eapply force_named. eassumption.
        -- reflexivity.
        -- exfalso. destruct Ht as [->|Ht]; [contradiction|]. exact (Hbs t Ht Hn).
  - cbn [dumps]. assert (Hno : forall t, (t = ty \/ In t (w_bases W ty)) -> ~ named_in h t).
    { intros t Ht Hn. assert (atomic_ty W A ty = true) by (apply atomic_iff; exists t; auto). congruence. }
    split.
    + intros H. inversion H; subst. apply wr_marked; [apply Hno; left; reflexivity|]. intros b Hb. apply Hno. right. exact Hb.
    + intros H. inversion H as [|? ? g a Hg Hga|? ? b Hb Hin Hnb| | | |]; subst; [| |reflexivity].
      * exfalso. apply (Hno ty); [left; reflexivity|]. eapply force_named. eassumption.
      * exfalso. apply (Hno b); [right; assumption|assumption].
Qed.

Lemma save_sound o : forall p, save W A o = Ok p -> written W h o p.
Proof.
  induction o as [a|ty n|l IH|d IH|ty] using obj_ind'; intros p H.
  - inversion H. constructor.
  - apply obj_written. exact H.
  - unfold save in H. cbn [ser] in H. destruct (map_res (ser W A) l) as [ls|] eqn:E1; cbn [bind dumps] in H; [|discriminate].
    destruct (map_res (dumps W A) ls) as [ps|] eqn:E2; cbn [bind] in H; [|discriminate]. inversion H; subst. constructor. clear H.
    apply map_res_ok in E1. apply map_res_ok in E2. revert ps E2. induction E1 as [|x y l ls Hx _ IHl]; intros ps E2; inversion E2; subst; [constructor|].
    inversion IH; subst. constructor; [|apply IHl; assumption]. apply H2. unfold save. rewrite Hx. exact H1.
  - unfold save in H. cbn [ser] in H. destruct (map_res _ d) as [ds|] eqn:E1; cbn [bind dumps] in H; [|discriminate].
    destruct (map_res _ ds) as [ps|] eqn:E2; cbn [bind] in H; [|discriminate]. inversion H; subst. constructor. clear H.
    apply map_res_ok in E1. apply map_res_ok in E2. revert ps E2. induction E1 as [|[k v] [k' v'] d ds Hx _ IHl]; intros ps E2; inversion E2; subst; [constructor|].
    inversion IH as [|? ? IHx IHd]; subst. cbn [snd] in IHx. destruct (ser_key W A k) as [k2|] eqn:Ek; cbn [bind] in Hx; [|discriminate].
    destruct (ser W A v) as [v2|] eqn:Ev; cbn [bind] in Hx; [|discriminate]. inversion Hx; subst k2 v2.
    destruct k' as [a|]; [|discriminate]. destruct (dumps W A v') as [q|] eqn:Ed; cbn [bind] in H1; [|discriminate]. inversion H1; subst.
    assert (k = KAtom a) as ->. { destruct k as [b|ty m]; cbn [ser_key] in Ek; [congruence|]. destruct (atomic_ty W A ty); congruence. }
    constructor; [|apply IHl; assumption]. apply IHx. unfold save. rewrite Ev. exact Ed.
  - inversion H. constructor.
Qed.
Lemma save_complete :
  (forall o p, written W h o p -> save W A o = Ok p) /\
  (forall l l', written_list W h l l' -> exists s, map_res (ser W A) l = Ok s /\ map_res (dumps W A) s = Ok l') /\
  (forall d d', written_dict W h d d' -> exists s,
     map_res (fun '(k, v) => do k <- ser_key W A k; do v <- ser W A v; Ok (k, v)) d = Ok s /\
     map_res (fun '(k, v) => match k with KAtom a => do v <- dumps W A v; Ok (a, v) | KObj _ _ => Exn TypeError end) s = Ok d').
Proof.
  apply written_mut.
  - reflexivity.
  - intros. apply obj_written. eapply wr_converted; eassumption.
  - intros. apply obj_written. eapply wr_lost; eassumption.
  - intros. apply obj_written. apply wr_marked; assumption.
  - reflexivity.
  - intros l l' _ (s & H1 & H2). unfold save. cbn [ser]. rewrite H1. cbn [bind dumps]. rewrite H2. reflexivity.
  - intros l l' _ (s & H1 & H2). unfold save. cbn [ser]. rewrite H1. cbn [bind dumps]. rewrite H2. reflexivity.
  - exists []. split; reflexivity.
  - intros o p l l' _ Ho _ (s & H1 & H2). unfold save in Ho. destruct (ser W A o) as [o'|] eqn:E; cbn [bind] in Ho; [|discriminate].
    exists (o' :: s). split.
    + apply map_res_ok. constructor; [exact E|]. apply map_res_ok. exact H1.
    + apply map_res_ok. constructor; [exact Ho|]. apply map_res_ok. exact H2.
  - exists []. split; reflexivity.
  - intros a o p l l' _ Ho _ (s & H1 & H2). unfold save in Ho. destruct (ser W A o) as [o'|] eqn:E; cbn [bind] in Ho; [|discriminate].
    exists ((KAtom a, o') :: s). split.
    + apply map_res_ok. constructor; [cbn [ser_key bind]; rewrite E; reflexivity|]. apply map_res_ok. exact H1.
    + apply map_res_ok. constructor; [rewrite Ho; reflexivity|]. apply map_res_ok. exact H2.
Qed.

Lemma save_blocked o : (exists e, save W A o = Exn e) <-> blocked h o.
Proof.
  split.
  - induction o as [a|ty n|l IH|d IH|ty] using obj_ind'; intros (e & H).
    + discriminate.
    + unfold save in H. cbn [ser bind] in H. destruct (atomic_ty W A ty); cbn [dumps] in H; [|discriminate].
      unfold default in H. destruct (assoc_n ty (a_convert A)) as [f|] eqn:Ef; [|discriminate].
      destruct (f n) as [|e'] eqn:E; [discriminate|]. eapply bl_conv; [apply A_conv; exact Ef|exact E].
    + unfold save in H. cbn [ser] in H. rewrite Forall_forall in IH.
      assert (G : exists x e, In x l /\ save W A x = Exn e).
      { destruct (map_res (ser W A) l) as [ls|e1] eqn:E1; cbn [bind dumps] in H.
        - destruct (map_res (dumps W A) ls) as [ps|e2] eqn:E2; cbn [bind] in H; [discriminate|]. apply map_res_exn in E2 as (y & Hy & E2).
          apply map_res_ok in E1. clear - E1 Hy E2. induction E1 as [|x z l ls Hx _ IH]; [contradiction|]. destruct Hy as [<-|Hy].
          + exists x, e2. split; [left; reflexivity|]. unfold save. rewrite Hx. exact E2.
          + destruct (IH Hy) as (x' & e' & H1 & H2). exists x', e'. split; [right; exact H1|exact H2].
        - apply map_res_exn in E1 as (x & Hx & E1). exists x, e1. split; [assumption|]. unfold save. rewrite E1. reflexivity. }
      destruct G as (x & e' & Hx & Hs). eapply bl_list; [exact Hx|]. apply IH; [assumption|]. exists e'. exact Hs.
    + unfold save in H. cbn [ser] in H. rewrite Forall_forall in IH.
      assert (G : (exists ty n x, In (KObj ty n, x) d) \/ exists k x e, In (k, x) d /\ save W A x = Exn e).
      { destruct (map_res _ d) as [ls|e1] eqn:E1; cbn [bind dumps] in H.
        - destruct (map_res _ ls) as [ps|e2] eqn:E2; cbn [bind] in H; [discriminate|]. apply map_res_exn in E2 as ([k y] & Hy & E2).
          apply map_res_ok in E1. clear - E1 Hy E2. induction E1 as [|[k0 x] z l ls Hx _ IH]; [contradiction|].
          destruct Hy as [->|Hy].
          + destruct k0 as [a|ty n]; [|left; exists ty, n, x; left; reflexivity]. right. cbn [ser_key bind] in Hx.
            destruct (ser W A x) as [x'|] eqn:E; cbn [bind] in Hx; [|discriminate]. inversion Hx; subst.
            exists (KAtom a), x. destruct (dumps W A y) as [|e3] eqn:Ed; cbn [bind] in E2; [discriminate|].
            exists e3. split; [left; reflexivity|]. unfold save. rewrite E. exact Ed.
          + destruct (IH Hy) as [(ty & n & x' & H1)|(k' & x' & e' & H1 & H2)]; [left; exists ty, n, x'; right; exact H1|].
            right. exists k', x', e'. split; [right; exact H1|exact H2].
        - apply map_res_exn in E1 as ([k x] & Hx & E1). destruct k as [a|ty n]; [|left; exists ty, n, x; exact Hx]. right.
          cbn [ser_key bind] in E1. destruct (ser W A x) as [x'|e3] eqn:E; cbn [bind] in E1; [discriminate|].
          exists (KAtom a), x, e3. split; [assumption|]. unfold save. rewrite E. reflexivity. }
      destruct G as [(ty & n & x & Hx)|(k & x & e' & Hx & Hs)]; [eapply bl_key; exact Hx|]. eapply bl_dict; [exact Hx|].
      apply (IH (k, x)); [assumption|]. exists e'. exact Hs.
    + discriminate.
  - intros Hb. destruct (save W A o) as [p|e] eqn:E; [|exists e; reflexivity]. exfalso. apply save_sound in E. revert p E.
    induction Hb as [ty n f e Hf Hn|l o Hin _ IH|d ty n o Hin|d k o Hin _ IH]; intros p H.
    + apply obj_written in H. unfold save in H. cbn [ser bind] in H.
      assert (Ha : atomic_ty W A ty = true). { apply atomic_iff. exists ty. split; [left; reflexivity|]. eapply force_named; eassumption. }
      rewrite Ha in H. cbn [dumps] in H. unfold default in H. apply A_conv in Hf. rewrite Hf, Hn in H. discriminate.
    + inversion H as [| | | | |? l' Hw|]; subst. clear H. induction Hw as [|x q l l' Hx _ IHl]; [contradiction|].
      destruct Hin as [->|Hin]; [exact (IH _ Hx)|exact (IHl Hin)].
    + inversion H as [| | | | | |? l' Hw]; subst. clear H. induction Hw as [|a x q l l' Hx _ IHl]; [contradiction|].
      destruct Hin as [Hin|Hin]; [discriminate|exact (IHl Hin)].
    + inversion H as [| | | | | |? l' Hw]; subst. clear H. induction Hw as [|a x q l l' Hx _ IHl]; [contradiction|].
      destruct Hin as [Hin|Hin]; [inversion Hin; subst; exact (IH _ Hx)|exact (IHl Hin)].
Qed.
End Proofs.

(** * The theorems *)
(** Exactly this ends up in the file. *)
Theorem C92_written : forall W h o p, save W (registered_aliases h) o = Ok p <-> written W h o p.
Proof. intros W h o p. split; [apply save_sound|apply (proj1 (save_complete W h))]. Qed.
Print Assumptions C92_written.

(** Saving fails exactly when an object is used as a key of a dict, even one of an aliased type, or a conversion raises. *)
Theorem C92_fails_iff : forall W h o, (exists e, save W (registered_aliases h) o = Exn e) <-> blocked h o.
Proof. intros W h o. apply save_blocked. Qed.
Print Assumptions C92_fails_iff.

(** Serialization accepts aliased keys; only writing the result fails. *)
Theorem C92_aliased_key : forall W h ty n v s, named_in h ty -> ser W (registered_aliases h) v = Ok s ->
  ser W (registered_aliases h) (ODict [(KObj ty n, v)]) = Ok (ODict [(KObj ty n, s)]) /\
  save W (registered_aliases h) (ODict [(KObj ty n, v)]) = Exn TypeError.
Proof.
  intros W h ty n v s Hn Hs. assert (Ha : atomic_ty W (registered_aliases h) ty = true) by (apply atomic_iff; exists ty; auto).
  assert (G : ser W (registered_aliases h) (ODict [(KObj ty n, v)]) = Ok (ODict [(KObj ty n, s)])).
  { cbn [ser map_res ser_key]. rewrite Ha. cbn [bind]. rewrite Hs. reflexivity. }
  split; [exact G|]. unfold save. rewrite G. reflexivity.
Qed.
Print Assumptions C92_aliased_key.

(** An object of a type derived from an alias passes for a number during serialization, so nothing marks it as unserializable,
    and what is written does not depend on its content: two different values give the same file. *)
Theorem C92_derived_is_lost : forall W h ty b n n' p, ~ named_in h ty -> In b (w_bases W ty) -> named_in h b ->
  ser W (registered_aliases h) (OObj ty n) = Ok (OObj ty n) /\
  (save W (registered_aliases h) (OObj ty n) = Ok p <-> p = PAtom (AStr ($"<un-serializable: " ++ w_qual W ty ++ $">"))) /\
  (save W (registered_aliases h) (OObj ty n) = Ok p <-> save W (registered_aliases h) (OObj ty n') = Ok p).
Proof.
  intros W h ty b n n' p H1 H2 H3.
  assert (G : forall n, save W (registered_aliases h) (OObj ty n) = Ok (PAtom (AStr ($"<un-serializable: " ++ w_qual W ty ++ $">")))).
  { intros m. apply C92_written. eapply wr_lost; eassumption. }
  split; [|split; rewrite ?G; [split; congruence|split; congruence]].
  cbn [ser]. assert (Ha : atomic_ty W (registered_aliases h) ty = true) by (apply atomic_iff; exists b; auto). rewrite Ha. reflexivity.
Qed.
Print Assumptions C92_derived_is_lost.

(** Plain data, such as everything that was read from a file, is written as it is. *)
Fixpoint plain (p : pser) : obj :=
  match p with
  | PAtom a => OAtom a
  | PList l => OList (map plain l)
  | PDict d => ODict (map (fun '(a, v) => (KAtom a, plain v)) d)
  end.
Section PserInd.
Variable P : pser -> Prop.
Hypothesis Ha : forall a, P (PAtom a).
Hypothesis Hl : forall l, Forall P l -> P (PList l).
Hypothesis Hd : forall d, Forall (fun kv => P (snd kv)) d -> P (PDict d).
Fixpoint pser_ind2 (o : pser) : P o :=
  match o with
  | PAtom a => Ha a
  | PList l => Hl l ((fix go l : Forall P l := match l with [] => Forall_nil _ | x :: r => Forall_cons x (pser_ind2 x) (go r) end) l)
  | PDict d => Hd d ((fix go d : Forall (fun kv : atom * pser => P (snd kv)) d :=
                        match d with [] => Forall_nil _ | x :: r => Forall_cons x (pser_ind2 (snd x)) (go r) end) d)
  end.
End PserInd.
Theorem C92_plain_data : forall W h p, save W (registered_aliases h) (plain p) = Ok p.
Proof.
  intros W h p. apply C92_written. induction p as [a|l IH|d IH] using pser_ind2; cbn [plain].
  - constructor.
  - constructor. induction IH as [|x l Hx _ IHl]; cbn [map]; constructor; assumption.
  - constructor. induction IH as [|[a x] l Hx _ IHl]; cbn [map]; constructor; assumption.
Qed.
Print Assumptions C92_plain_data.

(** An example: type 1 is [np.int64], 2 is derived from it, 3 is unrelated. *)
Definition al_world : world := mkWorld (fun t => if t =? 2 then [1] else []) (fun t => if t =? 2 then $"Count" else $"Thing") (fun _ => PDict [(AStr ($"_ser__type"), PAtom (AStr ($"_ser__unserializable")))]).
Definition al_int : conv := fun n => Ok (AInt (Z.of_nat n)).
Example C92_example :
  save al_world (registered_aliases [(1, al_int)]) (ODict [(KAtom (AStr ($"a")), OList [OObj 1 7; OAtom (AInt 2); OObj 2 9]); (KAtom (AInt 3), OObj 3 0)])
    = Ok (PDict [(AStr ($"a"), PList [PAtom (AInt 7); PAtom (AInt 2); PAtom (AStr ($"<un-serializable: Count>"))]);
                 (AInt 3, PDict [(AStr ($"_ser__type"), PAtom (AStr ($"_ser__unserializable")))])]) /\
  named_in [(1, al_int)] 1 /\ ~ named_in [(1, al_int)] 2 /\ In 1 (w_bases al_world 2) /\
  save al_world (registered_aliases [(1, al_int)]) (OList [ODict [(KObj 1 7, OAtom ANone)]]) = Exn TypeError /\
  blocked [(1, al_int)] (OList [ODict [(KObj 1 7, OAtom ANone)]]).
Proof.
  split; [vm_compute; reflexivity|]. split; [exists al_int; left; reflexivity|]. split; [intros (f & [H|[]]); inversion H|].
  split; [left; reflexivity|]. split; [vm_compute; reflexivity|]. eapply bl_list; [left; reflexivity|]. eapply bl_key. left. reflexivity.
Qed.
