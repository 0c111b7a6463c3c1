(** C113: configclasses that inherit from each other. *)
From Coq Require Import Ascii String List Bool Arith Lia.
From Verif Require Import Base DeriveModel.
Import ListNotations.

Section S.
Variables V T : Type.
Variable isinst : V -> T -> bool.
Variable simple : T -> bool.
Notation body := (body V T).
Notation klass := (klass V T).
Notation hierarchy := (hierarchy V T simple).
Notation construct := (construct V T isinst).
Notation set_attr := (set_attr V T isinst).
Notation get_attr := (get_attr V T).
Notation object := (base_object V T).
Implicit Types (b d : body) (pre post : list body) (k : klass).

(** ** Specification *)
Definition decorated b : Prop := b_deco V T b <> None.
(** A class body lists every name once. *)
Definition proper b : Prop := NoDup (map fst (b_decl V T b)).
(** The body declares [n] with the type [t]; it gives [n] the default [v]. *)
Definition declares b (n : str) (t : T) : Prop := exists o, In (n, (t, o)) (b_decl V T b).
Definition gives b (n : str) (v : V) : Prop := exists t, In (n, (t, Some v)) (b_decl V T b).
(** The value for [n] that a lookup finds in the classes [l], the last one first. *)
Definition latest (l : list body) (n : str) (v : V) : Prop :=
  exists a b c, l = a ++ b :: c /\ gives b n v /\ forall x w, In x c -> ~ gives x n w.
(** A class in [post] that is not decorated gives [n] another default, and no class after it is decorated. *)
Definition loose post (n : str) : Prop :=
  exists a b c v, post = a ++ b :: c /\ gives b n v /\ forall x, In x (b :: c) -> ~ decorated x.

(** ** Lemmas *)
Lemma find_in {A} n (l : list (str * A)) a : NoDup (map fst l) -> (find_name n l = Some a <-> In (n, a) l).
Proof.
  induction l as [|[m x] l IH]; cbn; intros N; [split; [discriminate|intros []]|]. inversion N as [|? ? N1 N2]; subst.
  destruct (str_eq_dec m n) as [->|Ne].
  - split; [intros E; left; congruence|]. intros [E|E]; [congruence|]. exfalso. apply N1. apply (in_map fst) in E. exact E.
  - rewrite IH by exact N2. split; [auto|]. intros [E|E]; [congruence|exact E].
Qed.
Lemma find_none {A} n (l : list (str * A)) : find_name n l = None <-> ~ In n (map fst l).
Proof.
  induction l as [|[m x] l IH]; cbn; [tauto|]. destruct (str_eq_dec m n) as [->|Ne]; [split; [discriminate|tauto]|]. rewrite IH. tauto.
Qed.
Lemma own_gives b n v : proper b -> (own V T b n = Some v <-> gives b n v).
Proof.
  intros P. unfold own, gives. destruct (find_name n (b_decl V T b)) as [[t o]|] eqn:E.
  - apply (find_in n _ _ P) in E. split; [intros ->; exists t; exact E|]. intros [t' H]. apply (find_in n _ _ P) in E, H. congruence.
  - split; [discriminate|]. intros [t' H]. apply (find_in n _ _ P) in H. congruence.
Qed.
Lemma own_none b n : proper b -> own V T b n = None -> forall v, ~ gives b n v.
Proof. intros P E v G. apply (own_gives b n v P) in G. congruence. Qed.

Lemma hierarchy_app a : forall k l, hierarchy k (a ++ l) = do k' <- hierarchy k a; hierarchy k' l.
Proof.
  induction a as [|b a IH]; intros k l; [reflexivity|]. cbn. destruct (class_of V T simple k b) as [k'|e]; [apply IH|reflexivity].
Qed.

Lemma latest_snoc l b n v : latest (l ++ [b]) n v <-> gives b n v \/ (latest l n v /\ forall w, ~ gives b n w).
Proof.
  split.
  - intros (x & y & z & E & G & H). destruct z as [|z0 z] using rev_ind.
    + apply app_inj_tail in E as [-> ->]. left; exact G.
    + clear IHz. change (l ++ [b] = x ++ (y :: z) ++ [z0]) in E. rewrite app_assoc in E. apply app_inj_tail in E as [-> ->]. right. split.
      * exists x, y, z. repeat split; auto. intros u w I. apply H. apply in_app_iff; auto.
      * intros w. apply H. apply in_app_iff; right; left; reflexivity.
  - intros [G|[(x & y & z & -> & G & H) N]].
    + exists l, b, []. repeat split; auto.
    + exists x, y, (z ++ [b]). repeat split; auto; [rewrite <- app_assoc; reflexivity|].
      intros u w I. apply in_app_iff in I as [I|[<-|[]]]; auto.
Qed.

(** Classes that are not decorated: no fields; an attribute is the latest value given. *)
Lemma plain_classes pre : Forall proper pre -> (forall b, In b pre -> ~ decorated b) ->
  exists k, hierarchy object pre = Ok k /\ k_fields V T k = None
  /\ forall n, match k_attrs V T k n with Some (Plain _ _ v) => latest pre n v | Some (Opt _ _ _) => False | None => forall v, ~ latest pre n v end.
Proof.
  induction pre as [|b pre IH] using rev_ind; intros P D.
  - exists object. repeat split. intros n. cbn. intros v (x & y & z & E & _). destruct x; discriminate.
  - apply Forall_app in P as [P1 P2]. inversion P2 as [|? ? Pb _]; subst.
    destruct IH as (k & E & F & A); [exact P1|intros x I; apply D, in_app_iff; auto|].
    rewrite hierarchy_app, E. cbn. unfold class_of. assert (Db : b_deco V T b = None).
    { specialize (D b). unfold decorated in D. destruct (b_deco V T b); [|reflexivity]. exfalso. apply D; [apply in_app_iff; right; left; reflexivity|discriminate]. }
    rewrite Db. cbn. exists (define V T b k). repeat split; [exact F|]. intros n. cbn. specialize (A n).
    destruct (own V T b n) as [v|] eqn:O.
    + apply latest_snoc. left. apply own_gives; assumption.
    + pose proof (own_none b n Pb O) as N. destruct (k_attrs V T k n) as [[v|t]|]; [|exact A|].
      * apply latest_snoc. auto.
      * intros v L. apply latest_snoc in L as [L|[L _]]; [apply (N v L)|apply (A v L)].
Qed.

Lemma loose_snoc post b n : loose (post ++ [b]) n <-> ~ decorated b /\ (loose post n \/ exists v, gives b n v).
Proof.
  split.
  - intros (x & y & z & v & E & G & H). destruct z as [|z0 z] using rev_ind.
    + apply app_inj_tail in E as [-> ->]. split; [apply H; left; reflexivity|right; exists v; exact G].
    + clear IHz. change (post ++ [b] = x ++ (y :: z) ++ [z0]) in E. rewrite app_assoc in E. apply app_inj_tail in E as [-> ->]. split.
      * apply H. right. apply in_app_iff; right; left; reflexivity.
      * left. exists x, y, z, v. repeat split; auto. intros u [->|I]; apply H; [left; reflexivity|right; apply in_app_iff; auto].
  - intros [N [(x & y & z & v & -> & G & H)|[v G]]].
    + exists x, y, (z ++ [b]), v. repeat split; auto; [rewrite <- app_assoc; reflexivity|].
      intros u [->|I]; [apply H; left; reflexivity|]. apply in_app_iff in I as [I|[<-|[]]]; [apply H; right; exact I|exact N].
    + exists post, b, [], v. repeat split; auto. intros u [<-|[]]. exact N.
Qed.

(** Classes after the first decorated one keep its fields. *)
Lemma later_classes l k0 : k_fields V T k0 = Some l -> (forall n t o, find_name n l = Some (t, o) -> k_attrs V T k0 n = Some (Opt V T t)) ->
  (forall n, find_name n l = None -> forall t, k_attrs V T k0 n <> Some (Opt V T t)) ->
  forall post k, Forall proper post -> hierarchy k0 post = Ok k ->
  k_fields V T k = Some l
  /\ (forall n t o, find_name n l = Some (t, o) ->
        (loose post n /\ exists v, k_attrs V T k n = Some (Plain V T v)) \/ (~ loose post n /\ k_attrs V T k n = Some (Opt V T t)))
  /\ (forall n, find_name n l = None -> forall t, k_attrs V T k n <> Some (Opt V T t)).
Proof.
  intros F0 A0 B0. induction post as [|b post IH] using rev_ind; intros k P H.
  - cbn in H. assert (k = k0) as -> by congruence. split; [exact F0|]. split; [|exact B0]. intros n t o E. right. split; [|eapply A0; exact E].
    intros (x & y & z & v & X & _). destruct x; discriminate.
  - apply Forall_app in P as [P1 P2]. inversion P2 as [|? ? Pb _]; subst. rewrite hierarchy_app in H.
    destruct (hierarchy k0 post) as [k1|e] eqn:E1; [|discriminate]. cbn in H. destruct (IH k1 P1 eq_refl) as (F & A & B). clear IH.
    unfold class_of in H. destruct (b_deco V T b) as [[at_ fo]|] eqn:Db.
    + assert (Dd : decorated b) by (unfold decorated; congruence). unfold configclass in H. cbn [define k_fields] in H. rewrite F in H. cbn [bind] in H.
      destruct (check_fields V T simple at_ fo l); [|discriminate]. cbn in H. inversion H; subst k. cbn. split; [reflexivity|]. split.
      * intros n t o E. rewrite E. right. split; [|reflexivity]. rewrite loose_snoc. tauto.
      * intros n E t. rewrite E. destruct (own V T b n); [discriminate|apply B; exact E].
    + assert (Dd : ~ decorated b) by (unfold decorated; congruence). cbn in H. inversion H; subst k. cbn. split; [exact F|]. split.
      * intros n t o E. rewrite loose_snoc. destruct (own V T b n) as [v|] eqn:O.
        -- left. split; [split; [exact Dd|right; exists v; apply own_gives; assumption]|exists v; reflexivity].
        -- pose proof (own_none b n Pb O) as N. destruct (A n t o E) as [[L X]|[L X]]; [left|right]; split; auto.
           intros [_ [L'|[v G]]]; [contradiction|exact (N v G)].
      * intros n E t. destruct (own V T b n); [discriminate|apply B; exact E].
Qed.

Lemma first_class pre d k : Forall proper (pre ++ [d]) -> (forall b, In b pre -> ~ decorated b) -> decorated d -> hierarchy object (pre ++ [d]) = Ok k ->
  exists l, k_fields V T k = Some l /\ map fst l = map fst (b_decl V T d)
  /\ (forall n t, (exists o, In (n, (t, o)) l) <-> declares d n t)
  /\ (forall n t v, In (n, (t, Some v)) l <-> declares d n t /\ latest (pre ++ [d]) n v)
  /\ (forall n t o, find_name n l = Some (t, o) -> k_attrs V T k n = Some (Opt V T t))
  /\ (forall n, find_name n l = None -> forall t, k_attrs V T k n <> Some (Opt V T t)).
Proof.
  intros P D Dd H. apply Forall_app in P as [P1 P2]. inversion P2 as [|? ? Pd _]; subst.
  destruct (plain_classes pre P1 D) as (k0 & E0 & F0 & A0). rewrite hierarchy_app, E0 in H. cbn in H.
  unfold class_of in H. destruct (b_deco V T d) as [[a f]|] eqn:Db; [|exfalso; apply Dd; exact Db].
  unfold configclass in H. cbn [define k_fields] in H. rewrite F0 in H. unfold dataclass in H.
  set (l := map _ (b_decl V T d)) in H. destruct (in_order V T false l); [|discriminate]. cbn [bind] in H.
  destruct (check_fields V T simple a f l); [|discriminate]. cbn in H. inversion H; subst k. exists l. cbn.
  assert (L : forall n v, default_of V T (define V T d k0) n = Some v <-> latest (pre ++ [d]) n v).
  { intros n v. unfold default_of. cbn. specialize (A0 n). rewrite latest_snoc. destruct (own V T d n) as [w|] eqn:O.
    - apply (own_gives d n w Pd) in O. split; [intros E; left; congruence|]. intros [G|[_ N]]; [|exfalso; exact (N w O)].
      apply (own_gives d n _ Pd) in G, O. congruence.
    - pose proof (own_none d n Pd O) as N. destruct (k_attrs V T k0 n) as [[w|t]|] eqn:K; [|contradiction|].
      + split; [intros E; right; split; [congruence|exact N]|]. intros [G|[G _]]; [exfalso; exact (N _ G)|].
        f_equal. clear -A0 G P1. revert w v A0 G. induction pre as [|b pre IH] using rev_ind; intros w v X Y.
        { destruct X as (x & y & z & X & _). destruct x; discriminate. }
        apply Forall_app in P1 as [P1 P2]. inversion P2 as [|? ? Pb _]; subst. apply latest_snoc in X, Y.
        destruct X as [X|[X X']], Y as [Y|[Y Y']]; [|exfalso; exact (Y' _ X)|exfalso; exact (X' _ Y)|apply IH; auto].
        apply (own_gives b n _ Pb) in X, Y. congruence.
      + split; [discriminate|]. intros [G|[G _]]; [exfalso; exact (N _ G)|exfalso; exact (A0 _ G)]. }
  repeat split.
  - unfold l. rewrite map_map. reflexivity.
  - intros [o I]. unfold l in I. apply in_map_iff in I as ([m [t' o']] & E & I). cbn in E. inversion E; subst. exists o'. exact I.
  - intros [o I]. exists (default_of V T (define V T d k0) n). unfold l. apply in_map_iff. exists (n, (t, o)). split; [reflexivity|exact I].
  - unfold l in H0. apply in_map_iff in H0 as ([m [t' o']] & E & I). cbn in E. inversion E; subst. exists o'. exact I.
  - unfold l in H0. apply in_map_iff in H0 as ([m [t' o']] & E & I). cbn in E. inversion E; subst. apply L. assumption.
  - intros [[o I] G]. unfold l. apply in_map_iff. exists (n, (t, o)). split; [cbn; rewrite (proj2 (L n v) G); reflexivity|exact I].
  - intros n t o E. rewrite E. reflexivity.
  - intros n E t. rewrite E. specialize (A0 n). destruct (own V T d n); [discriminate|]. destruct (k_attrs V T k0 n) as [[w|t']|]; [discriminate|contradiction|discriminate].
Qed.

Definition names_of d : list str := map fst (b_decl V T d).

Lemma whole pre d post k : Forall proper (pre ++ d :: post) -> (forall b, In b pre -> ~ decorated b) -> decorated d ->
  hierarchy object (pre ++ d :: post) = Ok k ->
  exists l, k_fields V T k = Some l /\ NoDup (map fst l) /\ map fst l = names_of d
  /\ (forall n t, (exists o, In (n, (t, o)) l) <-> declares d n t)
  /\ (forall n t v, In (n, (t, Some v)) l <-> declares d n t /\ latest (pre ++ [d]) n v)
  /\ (forall n t, declares d n t ->
        (loose post n /\ exists v, k_attrs V T k n = Some (Plain V T v)) \/ (~ loose post n /\ k_attrs V T k n = Some (Opt V T t)))
  /\ (forall n, ~ In n (names_of d) -> forall t, k_attrs V T k n <> Some (Opt V T t)).
Proof.
  intros P D Dd H. change (d :: post) with ([d] ++ post) in *. rewrite app_assoc in P, H. apply Forall_app in P as [P1 P2].
  rewrite hierarchy_app in H. destruct (hierarchy object (pre ++ [d])) as [k1|e] eqn:E1; [|discriminate]. cbn [bind] in H.
  destruct (first_class pre d k1 P1 D Dd E1) as (l & F & N & Dc & Df & A & B).
  destruct (later_classes l k1 F A B post k P2 H) as (F' & A' & B'). exists l.
  assert (Nd : NoDup (map fst l)) by (rewrite N; apply Forall_app in P1 as [_ P1]; inversion P1; assumption).
  split; [exact F'|]. split; [exact Nd|]. split; [exact N|]. split; [exact Dc|]. split; [exact Df|]. split.
  - intros n t X. apply Dc in X as [o X]. apply (find_in n l (t, o) Nd) in X. apply (A' n t o X).
  - intros n X t. apply B'. apply find_none. rewrite N. exact X.
Qed.

(** ** Theorems *)
(** The settings of a class are those that the first decorated class of its line declares, with the defaults that held there. *)
Theorem C113_settings : forall pre d post k, Forall proper (pre ++ d :: post) -> (forall b, In b pre -> ~ decorated b) -> decorated d ->
  hierarchy object (pre ++ d :: post) = Ok k ->
  exists l, k_fields V T k = Some l /\ map fst l = map fst (b_decl V T d)
  /\ (forall n t, (exists o, In (n, (t, o)) l) <-> declares d n t)
  /\ (forall n t v, In (n, (t, Some v)) l <-> declares d n t /\ latest (pre ++ [d]) n v).
Proof.
  intros pre d post k P D Dd H. destruct (whole pre d post k P D Dd H) as (l & F & _ & N & Dc & Df & _). exists l. auto.
Qed.

(** Assignment is refused exactly for a value of the wrong type to such a setting, unless a later class that is not decorated
    gives it another default. *)
Theorem C113_refused_iff : forall pre d post k o n v e, Forall proper (pre ++ d :: post) -> (forall b, In b pre -> ~ decorated b) -> decorated d ->
  hierarchy object (pre ++ d :: post) = Ok k ->
  (set_attr k o n v = Exn e <-> e = ValueError /\ exists t, declares d n t /\ isinst v t = false /\ ~ loose post n).
Proof.
  intros pre d post k o n v e P D Dd H. destruct (whole pre d post k P D Dd H) as (l & F & Nd & N & Dc & Df & A & B).
  unfold DeriveModel.set_attr. split.
  - intros E. destruct (k_attrs V T k n) as [[w|t]|] eqn:K; [discriminate| |discriminate].
    destruct (isinst v t) eqn:Ei; [discriminate|]. split; [congruence|].
    destruct (in_dec (list_eq_dec ascii_dec) n (names_of d)) as [I|I]; [|exfalso; exact (B n I t K)].
    apply in_map_iff in I as ([m [t' o']] & Em & I). cbn in Em. subst m. assert (X : declares d n t') by (exists o'; exact I).
    exists t'. split; [exact X|]. destruct (A n t' X) as [[_ [w K']]|[L K']]; [congruence|]. split; [congruence|exact L].
  - intros [-> (t & X & Ei & L)]. destruct (A n t X) as [[L' _]|[_ K]]; [contradiction|]. rewrite K, Ei. reflexivity.
Qed.

(** What a later class adds is no setting: any value can be assigned, and it is no argument of the constructor. *)
Theorem C113_added : forall pre d post k n, Forall proper (pre ++ d :: post) -> (forall b, In b pre -> ~ decorated b) -> decorated d ->
  hierarchy object (pre ++ d :: post) = Ok k -> ~ In n (map fst (b_decl V T d)) ->
  (forall o v, exists o', set_attr k o n v = Ok o' /\ get_attr k o' n = Ok (Some v))
  /\ forall v args, In (n, v) args -> construct k args = Exn TypeError.
Proof.
  intros pre d post k n P D Dd H Hn. destruct (whole pre d post k P D Dd H) as (l & F & Nd & N & Dc & Df & A & B). split.
  - intros o v. unfold DeriveModel.set_attr, DeriveModel.get_attr. specialize (B n Hn).
    destruct (k_attrs V T k n) as [[w|t]|] eqn:K; [|exfalso; exact (B t eq_refl)|]; (eexists; split; [reflexivity|]); cbn; unfold upd;
      destruct (str_eq_dec n n); congruence.
  - intros v args I. unfold DeriveModel.construct. rewrite F.
    destruct (forallb _ args) eqn:E; [|reflexivity]. exfalso. rewrite forallb_forall in E. specialize (E _ I). cbn in E.
    unfold names_of in N. rewrite <- N in Hn. apply find_none in Hn. rewrite Hn in E. discriminate.
Qed.

Lemma bind_spec l : forall args vs, bind_args V T l args = Ok vs -> map fst vs = map fst l
  /\ forall n v, In (n, v) vs -> find_name n args = Some v \/ (find_name n args = None /\ exists t, In (n, (t, Some v)) l).
Proof.
  induction l as [|[n [t o]] l IH]; intros args vs H; cbn in H; [inversion H; split; [reflexivity|intros ? ? []]|].
  destruct (find_name n args) as [v|] eqn:E; cbn in H; [|destruct o as [v|]; [|discriminate]; cbn in H];
    (destruct (bind_args V T l args) as [r|] eqn:Er; [|discriminate]); cbn in H; inversion H; subst vs;
    destruct (IH args r Er) as [IH1 IH2]; (split; [cbn; rewrite IH1; reflexivity|]); intros m w [X|X].
  - inversion X; subst. left; exact E.
  - destruct (IH2 m w X) as [Y|[Y [t' Z]]]; [left; exact Y|right; split; [exact Y|exists t'; right; exact Z]].
  - inversion X; subst. right. split; [exact E|exists t; left; reflexivity].
  - destruct (IH2 m w X) as [Y|[Y [t' Z]]]; [left; exact Y|right; split; [exact Y|exists t'; right; exact Z]].
Qed.
Lemma set_get k o n v o' : set_attr k o n v = Ok o' ->
  get_attr k o' n = Ok (Some v) /\ forall m, m <> n -> get_attr k o' m = get_attr k o m.
Proof.
  unfold DeriveModel.set_attr, DeriveModel.get_attr. intros H.
  destruct (k_attrs V T k n) as [[w|t]|] eqn:K; [|destruct (isinst v t); [|discriminate]|]; inversion H; subst o'; cbn; unfold upd;
    (destruct (str_eq_dec n n); [|congruence]); (split; [reflexivity|]); intros m Ne; destruct (str_eq_dec m n); congruence.
Qed.
Lemma set_all_get k : forall vs o o', NoDup (map fst vs) -> set_all V T isinst k o vs = Ok o' ->
  (forall n v, In (n, v) vs -> get_attr k o' n = Ok (Some v)) /\ forall n, ~ In n (map fst vs) -> get_attr k o' n = get_attr k o n.
Proof.
  induction vs as [|[n v] vs IH]; intros o o' N H; cbn in H; [inversion H; split; [intros ? ? []|reflexivity]|].
  inversion N as [|? ? N1 N2]; subst. destruct (set_attr k o n v) as [o1|e] eqn:E; [|discriminate]. cbn in H.
  destruct (IH o1 o' N2 H) as [I1 I2]. apply set_get in E as [E1 E2]. split.
  - intros m w [X|X]; [inversion X; subst; rewrite I2 by exact N1; exact E1|apply I1; exact X].
  - intros m X. cbn in X. rewrite I2 by tauto. apply E2. intros ->. tauto.
Qed.

(** A new instance holds the arguments given, and for the other settings the defaults that held in the first decorated class:
    another default in a later class has no effect. *)
Theorem C113_new_instance : forall pre d post k args o, Forall proper (pre ++ d :: post) -> (forall b, In b pre -> ~ decorated b) -> decorated d ->
  hierarchy object (pre ++ d :: post) = Ok k -> NoDup (map fst args) -> construct k args = Ok o ->
  forall n t, declares d n t -> exists v, get_attr k o n = Ok (Some v)
  /\ (In (n, v) args \/ (~ In n (map fst args) /\ latest (pre ++ [d]) n v)).
Proof.
  intros pre d post k args o P D Dd H Na C n t X. destruct (whole pre d post k P D Dd H) as (l & F & Nd & N & Dc & Df & A & B).
  unfold DeriveModel.construct in C. rewrite F in C. destruct (forallb _ args); [|discriminate].
  destruct (bind_args V T l args) as [vs|] eqn:E; [|discriminate]. cbn in C. apply bind_spec in E as [E1 E2].
  apply set_all_get in C as [C _]; [|rewrite E1; exact Nd]. apply Dc in X as [q X]. apply (in_map fst) in X. rewrite <- E1 in X.
  apply in_map_iff in X as ([m v] & Em & X). cbn in Em. subst m. exists v. split; [apply C; exact X|].
  destruct (E2 n v X) as [Y|[Y [t' Z]]]; [left; apply (find_in n args v Na); exact Y|right]. split; [apply find_none; exact Y|].
  apply Df in Z as [_ Z]. exact Z.
Qed.

(** Which decorations are refused.  The first: a TypeError for a setting without default after one with a default, else a
    ValueError for a type that is not allowed or a missing default, as the decorator says.  Later ones: only the second, by the
    settings of the first. *)
Definition objected (atomic force : bool) (l : list (str * (T * option V))) : Prop :=
  exists n t o, In (n, (t, o)) l /\ ((atomic = true /\ simple t = false) \/ (force = true /\ o = None)).
Lemma check_iff a f l e : check_fields V T simple a f l = Exn e <-> e = ValueError /\ objected a f l.
Proof.
  unfold objected. induction l as [|[n [t o]] l IH]; cbn [check_fields].
  - split; [discriminate|]. intros [_ (n & t & o & [] & _)].
  - destruct (a && negb (simple t)) eqn:E1; [|destruct (f && match o with None => true | Some _ => false end) eqn:E2].
    + apply andb_true_iff in E1 as [-> E1]. apply negb_true_iff in E1. split; [intros X; split; [congruence|]|intros [-> _]; reflexivity].
      exists n, t, o. split; [left; reflexivity|auto].
    + apply andb_true_iff in E2 as [-> E2]. destruct o; [discriminate|]. split; [intros X; split; [congruence|]|intros [-> _]; reflexivity].
      exists n, t, None. split; [left; reflexivity|auto].
    + rewrite IH. split; intros [-> (m & u & p & I & X)]; (split; [reflexivity|]).
      * exists m, u, p. split; [right; exact I|exact X].
      * destruct I as [I|I]; [|exists m, u, p; auto]. inversion I; subst. exfalso. destruct X as [[-> X]|[-> ->]]; [rewrite X in E1; discriminate|discriminate].
Qed.
Theorem C113_later_refused_iff : forall k l b a f e, k_fields V T k = Some l -> b_deco V T b = Some (a, f) ->
  (class_of V T simple k b = Exn e <-> e = ValueError /\ objected a f l).
Proof.
  intros k l b a f e F Db. unfold class_of, configclass. rewrite Db. cbn [define k_fields]. rewrite F. cbn [bind]. rewrite <- check_iff.
  destruct (check_fields V T simple a f l); cbn; [split; discriminate|split; intros X; inversion X; reflexivity].
Qed.
Lemma order_iff l : forall seen, in_order V T seen l = false <->
  exists x n t y, l = x ++ (n, (t, None)) :: y /\ (seen = true \/ exists m u v, In (m, (u, Some v)) x).
Proof.
  induction l as [|[n [t [v|]]] l IH]; intros seen; cbn [in_order].
  - split; [discriminate|]. intros (x & n & t & y & E & _). destruct x; discriminate.
  - rewrite IH. split.
    + intros (x & m & u & y & -> & _). exists ((n, (t, Some v)) :: x), m, u, y. split; [reflexivity|]. right. exists n, t, v. left; reflexivity.
    + intros (x & m & u & y & E & H). destruct x as [|p x]; [discriminate|]. inversion E; subst. exists x, m, u, y. auto.
  - destruct seen; cbn.
    + split; [|reflexivity]. intros _. exists [], n, t, l. auto.
    + rewrite IH. split.
      * intros (x & m & u & y & -> & [X|X]); [discriminate|]. exists ((n, (t, None)) :: x), m, u, y. split; [reflexivity|right].
        destruct X as (m' & u' & v & X). exists m', u', v. right; exact X.
      * intros (x & m & u & y & E & [X|(m' & u' & v & X)]); [discriminate|]. destruct x as [|p x]; [destruct X|]. inversion E; subst.
        destruct X as [X|X]; [discriminate|]. exists x, m, u, y. split; [reflexivity|right; eauto].
Qed.
Definition misordered (l : list (str * (T * option V))) : Prop :=
  exists x n t y m u v, l = x ++ (n, (t, None)) :: y /\ In (m, (u, Some v)) x.
(** The settings as declared, with the values that lookups in [k] find for them. *)
Theorem C113_first_refused_iff : forall k b a f e, k_fields V T k = None -> b_deco V T b = Some (a, f) ->
  let l := map (fun p => (fst p, (fst (snd p), default_of V T (define V T b k) (fst p)))) (b_decl V T b) in
  (class_of V T simple k b = Exn e <-> (e = TypeError /\ misordered l) \/ (e = ValueError /\ ~ misordered l /\ objected a f l)).
Proof.
  intros k b a f e F Db l. unfold class_of, configclass. rewrite Db. cbn [define k_fields]. rewrite F. unfold dataclass. fold l.
  assert (M : in_order V T false l = false <-> misordered l).
  { rewrite order_iff. unfold misordered. split.
    - intros (x & n & t & y & E & [X|(m & u & v & X)]); [discriminate|]. exists x, n, t, y, m, u, v. auto.
    - intros (x & n & t & y & m & u & v & E & X). exists x, n, t, y. split; [exact E|right; eauto]. }
  destruct (in_order V T false l); cbn [bind].
  - assert (Nm : ~ misordered l) by (intros X; apply M in X; discriminate).
    pose proof (check_iff a f l e) as Ci. destruct (check_fields V T simple a f l) as [u|e']; cbn.
    + split; [discriminate|]. intros [[_ X]|[-> [_ X]]]; [contradiction|]. destruct Ci as [_ Ci]. discriminate (Ci (conj eq_refl X)).
    + assert (X : @Exn klass e' = Exn e <-> @Exn unit e' = Exn e) by (split; intros X; inversion X; reflexivity). rewrite X, Ci. tauto.
  - pose proof (proj1 M eq_refl) as Y. split; [intros X; left; split; [congruence|exact Y]|].
    intros [[-> _]|[_ [X _]]]; [reflexivity|contradiction].
Qed.
End S.
Print Assumptions C113_settings.
Print Assumptions C113_refused_iff.
Print Assumptions C113_added.
Print Assumptions C113_new_instance.
Print Assumptions C113_later_refused_iff.
Print Assumptions C113_first_refused_iff.

(** ** Example: [class A: x: bool = True] and [class B(A): x: bool = False; y: bool = True], both decorated; then [C(B)] with [x]
    once more and no decorator.  Values are booleans and numbers, the types are their names. *)
Definition ex_inst (v : bool + nat) (t : bool) : bool := match v, t with inl _, true => true | inr _, false => true | _, _ => false end.
Definition ex_A := mkBody (bool + nat) bool [($"x", (true, Some (inl true)))] (Some (true, true)).
Definition ex_B := mkBody (bool + nat) bool [($"x", (true, Some (inl false))); ($"y", (true, Some (inl true)))] (Some (true, true)).
Definition ex_C := mkBody (bool + nat) bool [($"x", (true, Some (inl false)))] None.
Notation ex_h := (hierarchy (bool + nat) bool (fun _ => true) (base_object _ _)).
Notation ex_new k := (construct (bool + nat) bool ex_inst k).
Example C113_example_derived : Forall (proper _ _) [ex_A; ex_B; ex_C] /\ decorated _ _ ex_A /\ ~ loose _ _ [ex_B] ($"x") /\ loose _ _ [ex_B; ex_C] ($"x").
Proof.
  split; [|split; [|split]].
  - repeat (constructor; cbn; try (intuition discriminate)).
  - discriminate.
  - intros (a & b & c & v & E & G & H). destruct a as [|? [|]]; inversion E; subst. apply (H ex_B); [left; reflexivity|discriminate].
  - exists [ex_B], ex_C, [], (inl false). split; [reflexivity|]. split; [exists true; left; reflexivity|]. intros x [<-|[]] X. apply X. reflexivity.
Qed.
Definition ex_read (l : list (DeriveModel.body (bool + nat) bool)) args n := do k <- ex_h l; do o <- ex_new k args; get_attr _ _ k o n.
Definition ex_assign (l : list (DeriveModel.body (bool + nat) bool)) n v := do k <- ex_h l; do o <- ex_new k []; do o' <- set_attr _ _ ex_inst k o n v; get_attr _ _ k o' n.
Example C113_example_runs :
  ex_read [ex_A; ex_B] [] ($"x") = Ok (Some (inl true))                  (* not the default of B *)
  /\ ex_read [ex_A; ex_B] [($"y", inl true)] ($"x") = Exn TypeError      (* y is no setting *)
  /\ ex_assign [ex_A; ex_B] ($"y") (inr 3) = Ok (Some (inr 3))
  /\ ex_assign [ex_A; ex_B] ($"x") (inr 3) = Exn ValueError
  /\ ex_assign [ex_A; ex_B; ex_C] ($"x") (inr 3) = Ok (Some (inr 3)).
Proof. repeat split; reflexivity. Qed.
Example C113_example_refused :
  ex_h [mkBody _ _ [($"x", (true, Some (inl true))); ($"y", (true, None))] (Some (true, true))] = Exn TypeError
  /\ ex_h [mkBody _ _ [($"x", (true, None))] (Some (true, true))] = Exn ValueError
  /\ (exists k, ex_h [mkBody _ _ [($"x", (true, None))] (Some (true, false))] = Ok k)
  /\ ex_h [mkBody _ _ [($"x", (true, None))] (Some (true, false)); mkBody _ _ [] (Some (true, true))] = Exn ValueError.
Proof. repeat split; try reflexivity. eexists. reflexivity. Qed.
