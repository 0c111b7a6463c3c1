(** C56, C60: configuration objects. *)
From Coq Require Import List Ascii String Bool NArith ZArith Lia.
From Verif Require Import Base ConfigModel.
Import ListNotations.

(** ** Specification *)
(** The values of a type; a boolean is an integer. *)
Inductive of_type : val -> ctype -> Prop :=
| OfStr s : of_type (VStr s) CStr
| OfInt z : of_type (VInt z) CInt
| OfBoolInt b : of_type (VBool b) CInt
| OfFloat n : of_type (VFloat n) CFloat
| OfBool b : of_type (VBool b) CBool
| OfNone : of_type VNone CNone
| OfCfg id c fs : of_type (VCfg id c fs) (CCfg c).
(** Values that Python takes to be equal; 1 is True and 0 is False. *)
Inductive equal_values : val -> val -> Prop :=
| EqStr s : equal_values (VStr s) (VStr s)
| EqInt z : equal_values (VInt z) (VInt z)
| EqFloat n : equal_values (VFloat n) (VFloat n)
| EqBool b : equal_values (VBool b) (VBool b)
| EqNone : equal_values VNone VNone
| EqTrue1 : equal_values (VBool true) (VInt 1)
| EqFalse0 : equal_values (VBool false) (VInt 0)
| Eq1True : equal_values (VInt 1) (VBool true)
| Eq0False : equal_values (VInt 0) (VBool false).
(** A value in which every configuration is replaced by the dictionary of its fields. *)
Fixpoint plain_value (v : val) : val :=
  match v with
  | VDict l => VDict (map (fun p => (fst p, plain_value (snd p))) l)
  | VCfg _ _ fs => VDict (map (fun p => (fst p, plain_value (snd p))) fs)
  | _ => v
  end.
(** A configuration of a class has exactly the class's fields, with values of their types. *)
Inductive well_typed (classes : nat -> list cfield) : val -> Prop :=
| WT id c fs : NoDup (map fst fs) -> map fst fs = map f_name (classes c) ->
    (forall f v, In f (classes c) -> get (f_name f) fs = Some v -> of_type v (f_type f)) ->
    (forall f v d, In f (classes c) -> f_type f = CCfg d -> get (f_name f) fs = Some v -> well_typed classes v) ->
    well_typed classes (VCfg id c fs).
(** A list of field names that leads from a class to a field that is not itself a configuration. *)
Inductive leads (classes : nat -> list cfield) : nat -> list str -> ctype -> Prop :=
| Leads1 c f : In f (classes c) -> is_cfg (f_type f) = false -> leads classes c [f_name f] (f_type f)
| LeadsN c f d p t : In f (classes c) -> f_type f = CCfg d -> leads classes d p t -> leads classes c (f_name f :: p) t.
(** The value found along such a list. *)
Fixpoint value_at (v : val) (p : list str) : option val :=
  match p, v with
  | [], _ => Some v
  | n :: p, VCfg _ _ fs | n :: p, VDict fs => match get n fs with Some w => value_at w p | None => None end
  | _, _ => None
  end.
(** The value an override gives for it: none if a name is missing, or if a value on the way is to be ignored. *)
Fixpoint given (ignored : val -> bool) (v : val) (p : list str) : option val :=
  match p with
  | [] => Some v
  | n :: p =>
      match (match v with VCfg _ _ _ => plain_value v | _ => v end) with
      | VDict l => match get n l with
                   | Some w => if ignored w then None else given ignored w p
                   | None => None
                   end
      | _ => None
      end
  end.
(** The numbers of the objects a value is made of. *)
Fixpoint objects (v : val) : list nat :=
  match v with
  | VDict l => flat_map (fun p => objects (snd p)) l
  | VCfg id _ fs => match id with Some n => [n] | None => [] end ++ flat_map (fun p => objects (snd p)) fs
  | _ => []
  end.

Local Arguments str_eq_dec : simpl never.

Lemma isinst_iff v t : isinst v t = true <-> of_type v t.
Proof.
  split.
  - destruct v, t; cbn; intros H; try discriminate; try constructor. apply Nat.eqb_eq in H. subst. constructor.
  - intros H. destruct H; cbn; try reflexivity. apply Nat.eqb_refl.
Qed.
Lemma py_eq_iff a b : py_eq a b = true <-> equal_values a b.
Proof.
  split.
  - destruct a as [s|z|n|x| |n|l|i c fs], b as [s2|z2|n2|y| |n2|l2|i2 c2 fs2]; cbn; intros H; try discriminate; try constructor.
    + destruct (str_eq_dec s s2); [subst; constructor|discriminate].
    + apply Z.eqb_eq in H. subst. constructor.
    + apply Z.eqb_eq in H. subst. destruct y; constructor.
    + apply N.eqb_eq in H. subst. constructor.
    + apply Z.eqb_eq in H. subst. destruct x; constructor.
    + apply Bool.eqb_prop in H. subst. constructor.
  - intros H. destruct H; cbn; try reflexivity.
    + destruct (str_eq_dec s s); congruence.
    + apply Z.eqb_refl.
    + apply N.eqb_refl.
    + destruct b; reflexivity.
Qed.
(** ** Fields *)
Lemma val_ind2 (P : val -> Prop) :
  (forall v, match v with VDict _ | VCfg _ _ _ => False | _ => True end -> P v) ->
  (forall l, Forall (fun p => P (snd p)) l -> P (VDict l)) ->
  (forall id c fs, Forall (fun p => P (snd p)) fs -> P (VCfg id c fs)) -> forall v, P v.
Proof.
  intros HA HD HC. fix IH 1. intros v. destruct v as [s|z|n|b| |n|l|id c fs]; try (apply HA; exact I).
  - apply HD. induction l as [|p l IHl]; constructor; [apply IH|exact IHl].
  - apply HC. induction fs as [|p l IHl]; constructor; [apply IH|exact IHl].
Qed.
Lemma put_names name v fs : map fst (put name v fs) = map fst fs.
Proof. induction fs as [|[n w] r IH]; [reflexivity|]. cbn. destruct (str_eq_dec n name); cbn; [reflexivity|]. f_equal. exact IH. Qed.
Lemma get_put_same name v fs : In name (map fst fs) -> get name (put name v fs) = Some v.
Proof.
  induction fs as [|[n w] r IH]; [intros []|]. cbn. intros H. destruct (str_eq_dec n name) as [->|Hn]; cbn.
  - destruct (str_eq_dec name name); [reflexivity|congruence].
  - destruct (str_eq_dec n name); [congruence|]. apply IH. destruct H as [H|H]; [congruence|exact H].
Qed.
Lemma get_put_other name m v fs : m <> name -> get m (put name v fs) = get m fs.
Proof.
  intros Hm. induction fs as [|[n w] r IH]; [reflexivity|]. cbn. destruct (str_eq_dec n name) as [->|Hn]; cbn.
  - destruct (str_eq_dec name m); [congruence|reflexivity].
  - rewrite IH. reflexivity.
Qed.
Lemma get_in name fs : In name (map fst fs) -> exists v, get name fs = Some v.
Proof.
  induction fs as [|[n w] r IH]; [intros []|]. cbn. intros H. destruct (str_eq_dec n name) as [|Hn]; [eauto|].
  apply IH. destruct H as [H|H]; [congruence|exact H].
Qed.
Lemma get_some_in name v fs : get name fs = Some v -> In (name, v) fs.
Proof.
  induction fs as [|[n w] r IH]; [discriminate|]. cbn. destruct (str_eq_dec n name) as [->|Hn]; [injection 1 as ->; auto|]. auto.
Qed.
Lemma get_map (h : val -> val) name fs : get name (map (fun p => (fst p, h (snd p))) fs) = option_map h (get name fs).
Proof. induction fs as [|[n w] r IH]; [reflexivity|]. cbn. destruct (str_eq_dec n name); [reflexivity|exact IH]. Qed.
Lemma map_names {A B} (h : A -> B) (fs : list (str * A)) : map fst (map (fun p => (fst p, h (snd p))) fs) = map fst fs.
Proof. rewrite map_map. reflexivity. Qed.
Lemma find_map {B} (h : val -> B) name fs :
  find (fun p => if str_eq_dec (fst p) name then true else false) (map (fun p => (fst p, h (snd p))) fs) = option_map (fun v => (name, h v)) (get name fs).
Proof. induction fs as [|[n w] r IH]; [reflexivity|]. cbn. destruct (str_eq_dec n name) as [->|]; [reflexivity|exact IH]. Qed.
Lemma check_ok f v : check f v = Ok tt -> isinst v (f_type f) = true /\ forall o, f_options f = Some o -> existsb (py_eq v) o = true.
Proof.
  unfold check. destruct (isinst v (f_type f)); [|discriminate]. cbn. intros H. split; [reflexivity|]. intros o Ho. rewrite Ho in H.
  destruct (existsb (py_eq v) o); [reflexivity|discriminate].
Qed.
Lemma set_ok f v fs fs' : set_field f v fs = Ok fs' -> check f v = Ok tt /\ fs' = put (f_name f) v fs.
Proof. unfold set_field. destruct (check f v) as [[]|] eqn:E; [|discriminate]. cbn. intros H. injection H as <-. auto. Qed.
Lemma named (l : list cfield) f g : NoDup (map f_name l) -> In f l -> In g l -> f_name f = f_name g -> f = g.
Proof.
  induction l as [|h l IH]; [intros _ []|]. cbn. intros Hn Hf Hg E. inversion Hn as [|? ? Hh Hn']; subst.
  destruct Hf as [->|Hf]; destruct Hg as [->|Hg].
  - reflexivity.
  - exfalso. apply Hh. rewrite E. apply in_map. exact Hg.
  - exfalso. apply Hh. rewrite <- E. apply in_map. exact Hf.
  - apply IH; assumption.
Qed.
Lemma find_field (l : list cfield) f : NoDup (map f_name l) -> In f l ->
  find (fun g => if str_eq_dec (f_name g) (f_name f) then true else false) l = Some f.
Proof.
  intros Hn Hf. destruct (find _ l) as [g|] eqn:E.
  - apply find_some in E as [Hg E]. destruct (str_eq_dec (f_name g) (f_name f)) as [E2|]; [|discriminate]. f_equal. apply (named l); assumption.
  - exfalso. apply (find_none _ _ E) in Hf. destruct (str_eq_dec (f_name f) (f_name f)); [discriminate|congruence].
Qed.

(** ** C56 *)
Lemma init_ok l vs fs : init l vs = Ok fs -> map fst fs = map f_name l /\ Forall2 (fun f p => check f (snd p) = Ok tt) l fs.
Proof.
  revert vs fs. induction l as [|f l IH]; intros vs fs H; destruct vs as [|v vs]; try discriminate.
  - injection H as <-. split; [reflexivity|constructor].
  - cbn in H. destruct (check f v) as [[]|] eqn:E; [|discriminate]. cbn in H. destruct (init l vs) as [r|] eqn:Er; [|discriminate].
    cbn in H. injection H as <-. destruct (IH _ _ Er) as [H1 H2]. split; [cbn; congruence|]. constructor; [exact E|exact H2].
Qed.
Lemma assign_keeps l : NoDup (map f_name l) -> forall ops fs, map fst fs = map f_name l ->
  (forall f, In f l -> exists v, get (f_name f) fs = Some v /\ check f v = Ok tt) ->
  map fst (assign l ops fs) = map f_name l /\ forall f, In f l -> exists v, get (f_name f) (assign l ops fs) = Some v /\ check f v = Ok tt.
Proof.
  intros Hn. induction ops as [|[name v] ops IH]; intros fs H1 H2; [auto|]. cbn [assign].
  destruct (find _ l) as [f|] eqn:Ef; [|apply IH; assumption].
  apply find_some in Ef as [Hf Ef]. destruct (str_eq_dec (f_name f) name) as [En|]; [|discriminate].
  destruct (set_field f v fs) as [fs'|] eqn:Es; [|apply IH; assumption].
  apply set_ok in Es as [Hc ->]. apply IH; [rewrite put_names; exact H1|]. intros g Hg.
  destruct (str_eq_dec (f_name g) (f_name f)) as [E|E].
  - exists v. assert (g = f) by (apply (named l); assumption). subst g. split; [|exact Hc]. apply get_put_same. rewrite H1. apply in_map. exact Hf.
  - rewrite get_put_other by exact E. apply H2. exact Hg.
Qed.
Lemma init_checked l vs fs : NoDup (map f_name l) -> init l vs = Ok fs -> forall f, In f l -> exists v, get (f_name f) fs = Some v /\ check f v = Ok tt.
Proof.
  intros Hn H f Hf. apply init_ok in H as [H1 H2]. revert Hn Hf H1. induction H2 as [|g [n v] l fs Hc H2 IH]; [intros _ []|].
  cbn in *. intros Hn Hf H1. inversion Hn as [|? ? Hg Hn']; subst. injection H1 as -> H1. destruct (str_eq_dec (f_name g) (f_name f)) as [E|E].
  - destruct Hf as [->|Hf]; [eauto|]. exfalso. apply Hg. rewrite E. apply in_map. exact Hf.
  - destruct Hf as [->|Hf]; [congruence|]. apply IH; assumption.
Qed.
Lemma class_names decls : map f_name (configclass decls) = map (fun d => fst (fst d)) decls.
Proof. unfold configclass. rewrite map_map. apply map_ext. intros [[n t] d]. reflexivity. Qed.
Lemma class_field decls name tp d : In (name, tp, d) decls ->
  In (mkField name tp (match class_attr d with Some (AOption o) => Some o | _ => None end)) (configclass decls).
Proof. intros H. unfold configclass. apply in_map_iff. exists (name, tp, d). auto. Qed.

(** Whatever is assigned, by the constructor or later and with errors caught, a field holds a value of its type. *)
Theorem C56_types : forall decls vs fs ops name tp d,
  NoDup (map (fun d => fst (fst d)) decls) -> init (configclass decls) vs = Ok fs -> In (name, tp, d) decls ->
  exists v, get name (assign (configclass decls) ops fs) = Some v /\ of_type v tp.
Proof.
  intros decls vs fs ops name tp d Hn Hi Hd. rewrite <- class_names in Hn. pose proof (class_field _ _ _ _ Hd) as Hf.
  destruct (assign_keeps _ Hn ops fs) as [_ H]; [apply init_ok in Hi; tauto|apply (init_checked _ vs); assumption|].
  destruct (H _ Hf) as (v & H1 & H2). exists v. split; [exact H1|]. apply check_ok in H2 as [H2 _]. apply isinst_iff. exact H2.
Qed.
(** Options given to [optionfield] are not checked: every value of the type can be assigned. *)
Theorem C56_options_not_checked : forall decls vs fs name tp options default v,
  NoDup (map (fun d => fst (fst d)) decls) -> init (configclass decls) vs = Ok fs -> In (name, tp, DOptionfield options default) decls ->
  of_type v tp -> get name (assign (configclass decls) [(name, v)] fs) = Some v.
Proof.
  intros decls vs fs name tp options default v Hn Hi Hd Hv. apply isinst_iff in Hv. rewrite <- class_names in Hn. pose proof (class_field _ _ _ _ Hd) as Hf.
  replace (match class_attr (DOptionfield options default) with Some (AOption o) => Some o | _ => None end) with (@None (list val)) in Hf by (destruct default; reflexivity).
  cbn [assign]. rewrite (find_field _ _ Hn Hf : find (fun f => if str_eq_dec (f_name f) name then true else false) _ = _).
  unfold set_field, check. cbn [f_type f_options f_name]. rewrite Hv. cbn. apply get_put_same.
  apply init_ok in Hi as [Hi _]. rewrite Hi. apply (in_map f_name) in Hf. exact Hf.
Qed.
(** Options of an [OptionField] written directly in the class body are. *)
Theorem C56_descriptor_options : forall decls vs fs ops name tp options,
  NoDup (map (fun d => fst (fst d)) decls) -> init (configclass decls) vs = Ok fs -> In (name, tp, DDescriptor options) decls ->
  exists v, get name (assign (configclass decls) ops fs) = Some v /\ exists o, In o options /\ equal_values v o.
Proof.
  intros decls vs fs ops name tp options Hn Hi Hd. rewrite <- class_names in Hn. pose proof (class_field _ _ _ _ Hd) as Hf.
  destruct (assign_keeps _ Hn ops fs) as [_ H]; [apply init_ok in Hi; tauto|apply (init_checked _ vs); assumption|].
  destruct (H _ Hf) as (v & H1 & H2). exists v. split; [exact H1|]. apply check_ok in H2 as [_ H2]. specialize (H2 options eq_refl).
  apply existsb_exists in H2 as (o & Ho & He). exists o. split; [exact Ho|]. apply py_eq_iff. exact He.
Qed.
(** There every value of the type that is equal to an option is accepted. *)
Theorem C56_descriptor_accepts : forall decls vs fs name tp options v o,
  NoDup (map (fun d => fst (fst d)) decls) -> init (configclass decls) vs = Ok fs -> In (name, tp, DDescriptor options) decls ->
  of_type v tp -> In o options -> equal_values v o -> get name (assign (configclass decls) [(name, v)] fs) = Some v.
Proof.
  intros decls vs fs name tp options v o Hn Hi Hd Hv Ho He. apply isinst_iff in Hv. apply py_eq_iff in He.
  rewrite <- class_names in Hn. pose proof (class_field _ _ _ _ Hd) as Hf. cbn [class_attr] in Hf.
  cbn [assign]. rewrite (find_field _ _ Hn Hf : find (fun f => if str_eq_dec (f_name f) name then true else false) _ = _).
  unfold set_field, check. cbn [f_type f_options f_name]. rewrite Hv. cbn [negb].
  assert (Hx : existsb (py_eq v) options = true) by (apply existsb_exists; eauto). rewrite Hx. cbn [bind]. apply get_put_same.
  apply init_ok in Hi as [Hi _]. rewrite Hi. apply (in_map f_name) in Hf. exact Hf.
Qed.
(** path.py:19-39: [on_retouch = optionfield(["prompt", "quit", "ignore", "auto"], default="ignore")]. *)
Example C56_example :
  let decls := [($"on_retouch", CStr, DOptionfield [VStr ($"prompt"); VStr ($"quit"); VStr ($"ignore"); VStr ($"auto")] (Some (VStr ($"ignore"))));
                ($"default_suffix", CStr, DDefault (VStr ($".sto")));
                ($"mode", CStr, DDescriptor [VStr ($"a"); VStr ($"b")])] in
  exists fs, init (configclass decls) [VStr ($"ignore"); VStr ($".sto"); VStr ($"a")] = Ok fs /\
  NoDup (map (fun d => fst (fst d)) decls) /\
  assign (configclass decls) [($"on_retouch", VStr ($"bogus")); ($"default_suffix", VInt 3); ($"mode", VStr ($"c"))] fs =
    [($"on_retouch", VStr ($"bogus")); ($"default_suffix", VStr ($".sto")); ($"mode", VStr ($"a"))].
Proof.
  eexists. split; [reflexivity|]. split; [|reflexivity]. repeat constructor; cbn; intuition discriminate.
Qed.

(** ** C60 *)
Section Over.
Variable classes : nat -> list cfield.
Variable ignored : val -> bool.

(** What one field is after the loop. *)
Lemma fields_loop old right l fs : NoDup (map f_name l) -> incl (map f_name l) (map fst fs) -> forall fs',
  override_fields ignored old right l fs = (Ok tt, fs') ->
  map fst fs' = map fst fs /\
  (forall n, ~ In n (map f_name l) -> get n fs' = get n fs) /\
  forall f, In f l ->
    match get (f_name f) right with
    | None => get (f_name f) fs' = get (f_name f) fs
    | Some v => if ignored v then get (f_name f) fs' = get (f_name f) fs
                else exists w, get (f_name f) fs' = Some w /\ isinst w (f_type f) = true /\
                       if is_cfg (f_type f) then exists n g, find (fun p => if str_eq_dec (fst p) (f_name f) then true else false) old = Some (n, g) /\ g v = Ok w
                       else w = v
    end.
Proof.
  revert fs. induction l as [|f l IH]; intros fs Hn Hi fs' H.
  - cbn in H. injection H as <-. split; [reflexivity|]. split; [reflexivity|intros f []].
  - inversion Hn as [|? ? Hf Hn']; subst. cbn [override_fields] in H.
    (* the rest of the loop does not touch this field *)
    assert (Hrest : forall fs1, map fst fs1 = map fst fs -> override_fields ignored old right l fs1 = (Ok tt, fs') ->
              map fst fs' = map fst fs /\ get (f_name f) fs' = get (f_name f) fs1 /\
              (forall n, ~ In n (map f_name l) -> get n fs' = get n fs1) /\
              forall g, In g l -> match get (f_name g) right with
                | None => get (f_name g) fs' = get (f_name g) fs1
                | Some v => if ignored v then get (f_name g) fs' = get (f_name g) fs1
                    else exists w, get (f_name g) fs' = Some w /\ isinst w (f_type g) = true /\
                       if is_cfg (f_type g) then exists n h, find (fun p => if str_eq_dec (fst p) (f_name g) then true else false) old = Some (n, h) /\ h v = Ok w
                       else w = v
                end).
    { intros fs1 Hs Ho. destruct (IH fs1 Hn') with (fs' := fs') as (A & B & C); [rewrite Hs; intros x Hx; apply Hi; right; exact Hx|exact Ho|].
      split; [congruence|]. split; [apply B; exact Hf|]. auto. }
    destruct (get (f_name f) right) as [value|] eqn:Eg; [destruct (ignored value) eqn:Ei|].
    + destruct (Hrest fs eq_refl H) as (A & B & C & D). split; [exact A|]. split; [intros n Hnn; apply C; intros X; apply Hnn; right; exact X|].
      intros g [<-|Hg]; [rewrite Eg, Ei; exact B|apply D; exact Hg].
    + destruct (if is_cfg (f_type f) then _ else Ok value) as [w|] eqn:Ew; [|discriminate].
      destruct (set_field f w fs) as [fs1|] eqn:Es; [|discriminate]. apply set_ok in Es as [Hc ->]. apply check_ok in Hc as [Hc _].
      destruct (Hrest (put (f_name f) w fs)) as (A & B & C & D); [apply put_names|exact H|].
      split; [exact A|]. split.
      { intros n Hnn. rewrite C by (intros X; apply Hnn; right; exact X). apply get_put_other. intros ->. apply Hnn. left. reflexivity. }
      intros g [<-|Hg].
      * rewrite Eg, Ei. exists w. split; [rewrite B; apply get_put_same; apply Hi; left; reflexivity|]. split; [exact Hc|].
        destruct (is_cfg (f_type f)); [|congruence]. destruct (find _ old) as [[n h]|] eqn:Efd; [|discriminate]. exists n, h. auto.
      * pose proof (D g Hg) as Dg. assert (Hng : f_name g <> f_name f) by (intros X; apply Hf; rewrite <- X; apply in_map; exact Hg).
        rewrite get_put_other in Dg by exact Hng. exact Dg.
    + destruct (Hrest fs eq_refl H) as (A & B & C & D). split; [exact A|]. split; [intros n Hnn; apply C; intros X; apply Hnn; right; exact X|].
      intros g [<-|Hg]; [rewrite Eg; exact B|apply D; exact Hg].
Qed.

(** One level of [override]: the object, and what each field becomes. *)
Definition field_after (keep : val -> val) (fs fs' : list (str * val)) (r : list (str * val)) (f : cfield) : Prop :=
  match get (f_name f) r with
  | None => get (f_name f) fs' = option_map keep (get (f_name f) fs)
  | Some v => if ignored v then get (f_name f) fs' = option_map keep (get (f_name f) fs)
              else exists w, get (f_name f) fs' = Some w /\ isinst w (f_type f) = true /\
                     if is_cfg (f_type f) then exists x, get (f_name f) fs = Some x /\ override_copy classes ignored x v = Ok w else w = v
  end.
Lemma old_find fs n m g :
  find (fun p => if str_eq_dec (fst p) n then true else false) (map (fun p => (fst p, override_copy classes ignored (snd p))) fs) = Some (m, g) ->
  exists x, get n fs = Some x /\ g = override_copy classes ignored x.
Proof. rewrite find_map. destruct (get n fs) as [x|]; [|discriminate]. cbn. intros H. injection H as _ <-. eauto. Qed.
Lemma copy_level id c fs right out : well_typed classes (VCfg id c fs) -> override_copy classes ignored (VCfg id c fs) right = Ok out ->
  exists r fs', right_dict right = Ok r /\ out = VCfg None c fs' /\ map fst fs' = map fst fs /\ forall f, In f (classes c) -> field_after deepcopy fs fs' r f.
Proof.
  intros Ht H. inversion Ht as [? ? ? Hn Hnames _ _]; subst. cbn [override_copy] in H. destruct (right_dict right) as [r|] eqn:Er; [|discriminate]. cbn [bind] in H.
  destruct (override_fields _ _ _ _ _) as [[[]|] fs'] eqn:Eo; [|discriminate]. cbn in H. injection H as <-. exists r, fs'.
  split; [reflexivity|]. split; [reflexivity|].
  apply fields_loop in Eo as (A & _ & B); [|rewrite <- Hnames; exact Hn|rewrite map_names, Hnames; apply incl_refl].
  rewrite map_names in A. split; [exact A|]. intros f Hf. specialize (B f Hf). unfold field_after. rewrite get_map in B.
  destruct (get (f_name f) r) as [v|]; [destruct (ignored v)|]; [exact B| |exact B].
  destruct B as (w & B1 & B2 & B3). exists w. split; [exact B1|]. split; [exact B2|]. destruct (is_cfg (f_type f)); [|exact B3].
  destruct B3 as (n & g & B3 & B4). apply old_find in B3 as (x & B3 & ->). eauto.
Qed.
Lemma inplace_level id c fs right out after : well_typed classes (VCfg id c fs) -> override_inplace classes ignored (VCfg id c fs) right = (Ok out, after) ->
  exists r fs', right_dict right = Ok r /\ out = VCfg id c fs' /\ after = out /\ map fst fs' = map fst fs /\ forall f, In f (classes c) -> field_after (fun x => x) fs fs' r f.
Proof.
  intros Ht H. inversion Ht as [? ? ? Hn Hnames _ _]; subst. cbn [override_inplace] in H. destruct (right_dict right) as [r|] eqn:Er; [|discriminate].
  destruct (override_fields _ _ _ _ _) as [[[]|] fs'] eqn:Eo; [|discriminate]. cbn in H. injection H as <- <-. exists r, fs'.
  split; [reflexivity|]. split; [reflexivity|]. split; [reflexivity|].
  apply fields_loop in Eo as (A & _ & B); [|rewrite <- Hnames; exact Hn|rewrite Hnames; apply incl_refl].
  split; [exact A|]. intros f Hf. specialize (B f Hf). unfold field_after.
  assert (Hid : forall o : option val, option_map (fun x => x) o = o) by (intros [|]; reflexivity). rewrite Hid.
  destruct (get (f_name f) r) as [v|]; [destruct (ignored v)|]; [exact B| |exact B].
  destruct B as (w & B1 & B2 & B3). exists w. split; [exact B1|]. split; [exact B2|]. destruct (is_cfg (f_type f)); [|exact B3].
  destruct B3 as (n & g & B3 & B4). apply old_find in B3 as (x & B3 & ->). eauto.
Qed.

Lemma copy_leaf v t : isinst v t = true -> is_cfg t = false -> deepcopy v = v.
Proof. destruct v, t; cbn; intros; congruence. Qed.
Lemma field_value id c fs f : well_typed classes (VCfg id c fs) -> In f (classes c) -> exists v, get (f_name f) fs = Some v /\ isinst v (f_type f) = true.
Proof.
  intros Ht Hf. inversion Ht as [? ? ? Hn Hnames Hty _]; subst.
  destruct (get_in (f_name f) fs) as [v Hv]; [rewrite Hnames; apply in_map; exact Hf|]. exists v. split; [exact Hv|]. apply isinst_iff. eauto.
Qed.
(** A copy holds the same values. *)
Lemma copied_value c p t : leads classes c p t -> forall id fs, well_typed classes (VCfg id c fs) ->
  value_at (deepcopy (VCfg id c fs)) p = value_at (VCfg id c fs) p.
Proof.
  induction 1 as [c f Hf Ht|c f d p t Hf Ht Hl IH]; intros id fs Hw; cbn [deepcopy value_at]; rewrite get_map;
    destruct (field_value _ _ _ _ Hw Hf) as (v & Hv & Hty); rewrite Hv; cbn [option_map].
  - cbn. f_equal. apply (copy_leaf v (f_type f)); assumption.
  - inversion Hw as [? ? ? _ _ _ Hsub]; subst. specialize (Hsub f v d Hf Ht Hv). rewrite Ht in Hty.
    destruct v as [| | | | | | |id2 c2 fs2]; try discriminate. cbn in Hty. apply Nat.eqb_eq in Hty. subst c2. apply IH. exact Hsub.
Qed.
Lemma right_given right r : right_dict right = Ok r -> forall n p, given ignored right (n :: p) =
  match get n r with Some w => if ignored w then None else given ignored w p | None => None end.
Proof. intros H n p. cbn. destruct right; try discriminate; cbn in H; injection H as <-; reflexivity. Qed.

Lemma copy_value c p t : leads classes c p t -> forall id fs right out, well_typed classes (VCfg id c fs) ->
  override_copy classes ignored (VCfg id c fs) right = Ok out ->
  value_at out p = match given ignored right p with Some v => Some v | None => value_at (VCfg id c fs) p end /\
  forall v, given ignored right p = Some v -> isinst v t = true.
Proof.
  induction 1 as [c f Hf Ht|c f d p t Hf Ht Hl IH]; intros id fs right out Hw H;
    destruct (copy_level _ _ _ _ _ Hw H) as (r & fs' & Hr & -> & _ & Hfld); specialize (Hfld f Hf); unfold field_after in Hfld;
    rewrite (right_given _ _ Hr); cbn [value_at];
    destruct (field_value _ _ _ _ Hw Hf) as (x & Hx & Hty).
  - destruct (get (f_name f) r) as [v|]; [destruct (ignored v)|]; cbn [given].
    + rewrite Hfld, Hx. cbn. split; [f_equal; apply (copy_leaf x (f_type f)); assumption|discriminate].
    + rewrite Ht in Hfld. destruct Hfld as (w & -> & Hw2 & ->). split; [reflexivity|congruence].
    + rewrite Hfld, Hx. cbn. split; [f_equal; apply (copy_leaf x (f_type f)); assumption|discriminate].
  - inversion Hw as [? ? ? _ _ _ Hsub]; subst. specialize (Hsub f x d Hf Ht Hx). pose proof Hty as Hty2. rewrite Ht in Hty2.
    destruct x as [| | | | | | |id2 c2 fs2]; try discriminate. cbn in Hty2. apply Nat.eqb_eq in Hty2. subst c2.
    destruct (get (f_name f) r) as [v|]; [destruct (ignored v)|].
    + rewrite Hfld, Hx. cbn [option_map]. split; [apply (copied_value d p t Hl _ _ Hsub)|discriminate].
    + rewrite Ht in Hfld. cbn [is_cfg] in Hfld. destruct Hfld as (w & -> & Hw2 & y & Hy & Ho). rewrite Hx in Hy |- *. injection Hy as <-. apply (IH _ _ _ _ Hsub Ho).
    + rewrite Hfld, Hx. cbn [option_map]. split; [apply (copied_value d p t Hl _ _ Hsub)|discriminate].
Qed.

Lemma copy_objects v : objects (deepcopy v) = [].
Proof.
  induction v as [v Hv|l IH|id c fs IH] using val_ind2; [destruct v; try reflexivity; destruct Hv| |]; cbn.
  - induction IH as [|p l Hp Hl IHl]; [reflexivity|]. cbn. rewrite Hp, IHl. reflexivity.
  - induction IH as [|p l Hp Hl IHl]; [reflexivity|]. cbn. rewrite Hp, IHl. reflexivity.
Qed.
Lemma flat_nil fs : NoDup (map fst fs) -> (forall n v, get n fs = Some v -> objects v = []) -> flat_map (fun p => objects (snd p)) fs = [].
Proof.
  induction fs as [|[n v] fs IH]; intros Hn H; [reflexivity|]. cbn. inversion Hn as [|? ? Hv Hn']; subst.
  rewrite (H n v) by (cbn; destruct (str_eq_dec n n); congruence). apply IH; [exact Hn'|]. intros m w Hg. apply (H m). cbn.
  destruct (str_eq_dec n m) as [->|]; [|exact Hg]. exfalso. apply Hv. apply get_some_in in Hg. apply (in_map fst) in Hg. exact Hg.
Qed.
Lemma leaf_objects v t : isinst v t = true -> is_cfg t = false -> objects v = [].
Proof. destruct v, t; cbn; intros; congruence. Qed.
Lemma field_of c fs n v : map fst fs = map f_name (classes c) -> get n fs = Some v -> exists f, In f (classes c) /\ f_name f = n.
Proof.
  intros Hn Hg. apply get_some_in in Hg. apply (in_map fst) in Hg. rewrite Hn in Hg. cbn [fst] in Hg. apply in_map_iff in Hg as (f & Hf1 & Hf). exists f. auto.
Qed.
Lemma copy_fresh v : well_typed classes v -> forall right out, override_copy classes ignored v right = Ok out -> objects out = [].
Proof.
  induction v as [v Hv|l IH|id c fs IH] using val_ind2; intros Hw right out H; try (inversion Hw; subst; destruct Hv); try (inversion Hw; fail).
  destruct (copy_level _ _ _ _ _ Hw H) as (r & fs' & Hr & -> & Hnm & Hfld). inversion Hw as [? ? ? Hn Hnames Hty Hsub]; subst. cbn.
  apply flat_nil; [rewrite Hnm; exact Hn|]. intros n w Hg. destruct (field_of c fs' n w) as (f & Hf & <-); [congruence|exact Hg|].
  specialize (Hfld f Hf). unfold field_after in Hfld.
  assert (Hkeep : get (f_name f) fs' = option_map deepcopy (get (f_name f) fs) -> objects w = []).
  { rewrite Hg. destruct (get (f_name f) fs); [|discriminate]. cbn. intros E. injection E as ->. apply copy_objects. }
  destruct (get (f_name f) r) as [v|]; [destruct (ignored v)|]; [auto| |auto].
  destruct Hfld as (w2 & E & Ht & Hc). rewrite Hg in E. injection E as <-. destruct (is_cfg (f_type f)) eqn:Ec.
  - destruct Hc as (x & Hx & Ho). destruct (f_type f) as [| | | | |d] eqn:Et; try discriminate.
    rewrite Forall_forall in IH. pose proof (get_some_in _ _ _ Hx) as Hin. apply (IH _ Hin) with (right := v); [apply (Hsub f x d); assumption|exact Ho].
  - apply (leaf_objects w (f_type f)); assumption.
Qed.

(** The loop leaves values of the right types, also when it stops at an error. *)
Lemma deepcopy_inst v t : isinst (deepcopy v) t = isinst v t.
Proof. destruct v, t; reflexivity. Qed.
Lemma deepcopy_typed v : well_typed classes v -> well_typed classes (deepcopy v).
Proof.
  induction v as [v Hv|l IH|id c fs IH] using val_ind2; intros Hw; try (inversion Hw; subst; destruct Hv); try (inversion Hw; fail).
  inversion Hw as [? ? ? Hn Hnames Hty Hsub]; subst. cbn [deepcopy]. constructor; rewrite ?map_names; try assumption.
  - intros f v Hf. rewrite get_map. destruct (get (f_name f) fs) as [x|] eqn:E; [|discriminate]. cbn. intros X. injection X as <-.
    apply isinst_iff. rewrite deepcopy_inst. apply isinst_iff. apply (Hty f x); assumption.
  - intros f v d Hf Ht. rewrite get_map. destruct (get (f_name f) fs) as [x|] eqn:E; [|discriminate]. cbn. intros X. injection X as <-.
    rewrite Forall_forall in IH. pose proof (get_some_in _ _ _ E) as Hin. apply (IH _ Hin). apply (Hsub f x d); assumption.
Qed.
Lemma loop_typed c id old right l fs res' fs' : incl l (classes c) -> NoDup (map f_name (classes c)) ->
  (forall n g v w, In (n, g) old -> g v = Ok w -> well_typed classes w) ->
  well_typed classes (VCfg id c fs) -> override_fields ignored old right l fs = (res', fs') -> well_typed classes (VCfg id c fs').
Proof.
  revert fs. induction l as [|f l IH]; intros fs Hi Hnd Ho Hw H; [cbn in H; congruence|]. cbn [override_fields] in H.
  assert (Hi' : incl l (classes c)) by (intros x Hx; apply Hi; right; exact Hx).
  destruct (get (f_name f) right) as [v|]; [destruct (ignored v)|]; [apply (IH fs); assumption| |apply (IH fs); assumption].
  destruct (if is_cfg (f_type f) then _ else Ok v) as [w|] eqn:Ew; [|congruence].
  destruct (set_field f w fs) as [fs1|] eqn:Es; [|congruence]. apply set_ok in Es as [Hc ->]. apply check_ok in Hc as [Hc _].
  apply (IH (put (f_name f) w fs)); try assumption.
  inversion Hw as [? ? ? Hn Hnames Hty Hsub]; subst. assert (Hf : In f (classes c)) by (apply Hi; left; reflexivity).
  assert (Hget : forall g x, In g (classes c) -> get (f_name g) (put (f_name f) w fs) = Some x -> (g = f /\ x = w) \/ get (f_name g) fs = Some x).
  { intros g x Hg E. destruct (str_eq_dec (f_name g) (f_name f)) as [En|En].
    - left. assert (g = f) by (apply (named (classes c)); assumption). subst g. split; [reflexivity|].
      rewrite get_put_same in E by (rewrite Hnames; apply in_map; exact Hf). congruence.
    - right. rewrite get_put_other in E by exact En. exact E. }
  constructor; rewrite ?put_names; try assumption.
  - intros g x Hg E. destruct (Hget g x Hg E) as [[-> ->]|E2]; [apply isinst_iff; exact Hc|apply (Hty g x); assumption].
  - intros g x d Hg Ht E. destruct (Hget g x Hg E) as [[-> ->]|E2]; [|apply (Hsub g x d); assumption].
    rewrite Ht in Ew. cbn [is_cfg] in Ew. destruct (find _ old) as [[n h]|] eqn:Efd; [|discriminate]. apply find_some in Efd as [Efd _].
    apply (Ho n h v w); assumption.
Qed.
Lemma copy_typed v : forall right out, well_typed classes v -> override_copy classes ignored v right = Ok out -> well_typed classes out.
Proof.
  induction v as [v Hv|l IH|id c fs IH] using val_ind2; intros right out Hw H; try (inversion Hw; subst; destruct Hv); try (inversion Hw; fail).
  pose proof (deepcopy_typed _ Hw) as Hd. cbn [deepcopy] in Hd.
  inversion Hw as [? ? ? Hn Hnames Hty Hsub]; subst. cbn [override_copy] in H. destruct (right_dict right) as [r|]; [|discriminate]. cbn [bind] in H.
  destruct (override_fields _ _ _ _ _) as [e fs'] eqn:Eo. destruct e as [[]|]; [|discriminate]. cbn in H. injection H as <-.
  apply (loop_typed c None) in Eo; [exact Eo|apply incl_refl|rewrite <- Hnames; exact Hn| |exact Hd].
  intros n g v w Hin Hg. apply in_map_iff in Hin as ([m x] & E & Hin). cbn in E. injection E as <- <-.
  rewrite Forall_forall in IH. apply (IH (m, x) Hin v w); [|exact Hg].
  destruct x as [| | | | | | |id2 c2 fs2]; try discriminate.
  assert (Hgx : get m fs = Some (VCfg id2 c2 fs2)).
  { clear -Hin Hn. induction fs as [|[a b] fs IH]; [destruct Hin|]. cbn in *. inversion Hn as [|? ? Ha Hn']; subst. destruct Hin as [E|Hin].
    - injection E as -> ->. destruct (str_eq_dec m m); congruence.
    - destruct (str_eq_dec a m) as [->|]; [|apply IH; assumption]. exfalso. apply Ha. apply (in_map fst) in Hin. exact Hin. }
  destruct (field_of c fs m _ Hnames Hgx) as (f & Hf & <-). pose proof (Hty f _ Hf Hgx) as Hi. apply isinst_iff in Hi.
  destruct (f_type f) as [| | | | |d] eqn:Et; try discriminate. apply (Hsub f _ d); assumption.
Qed.
End Over.

(** A successful override holds, for every setting, the value given for it, else the one it had; values given are of
    the setting's type. *)
Theorem C60_override_value : forall classes ignored id c fs right out p t,
  well_typed classes (VCfg id c fs) -> leads classes c p t -> override_copy classes ignored (VCfg id c fs) right = Ok out ->
  value_at out p = match given ignored right p with Some v => Some v | None => value_at (VCfg id c fs) p end /\
  forall v, given ignored right p = Some v -> of_type v t.
Proof.
  intros classes ignored id c fs right out p t Hw Hl H. destruct (copy_value classes ignored c p t Hl id fs right out Hw H) as [H1 H2].
  split; [exact H1|]. intros v Hg. apply isinst_iff. apply H2. exact Hg.
Qed.
(** The same in place; then the result is the object itself. *)
Theorem C60_inplace_value : forall classes ignored id c fs right out after p t,
  well_typed classes (VCfg id c fs) -> leads classes c p t -> override_inplace classes ignored (VCfg id c fs) right = (Ok out, after) ->
  after = out /\ (exists fs', out = VCfg id c fs') /\
  value_at out p = match given ignored right p with Some v => Some v | None => value_at (VCfg id c fs) p end.
Proof.
  intros classes ignored id c fs right out after p t Hw Hl H.
  destruct (inplace_level _ _ _ _ _ _ _ _ Hw H) as (r & fs' & Hr & -> & -> & _ & Hfld). split; [reflexivity|]. split; [eauto|].
  assert (Hid : forall o : option val, option_map (fun x => x) o = o) by (intros [|]; reflexivity).
  inversion Hl as [? f Hf Ht|? f d p2 ? Hf Ht Hl2]; subst; specialize (Hfld f Hf); unfold field_after in Hfld; rewrite (right_given _ _ _ Hr); rewrite Hid in Hfld; cbn [value_at];
    destruct (field_value _ _ _ _ _ Hw Hf) as (x & Hx & Hty).
  - destruct (get (f_name f) r) as [v|]; [destruct (ignored v)|]; cbn [given]; [rewrite Hfld; reflexivity| |rewrite Hfld; reflexivity].
    rewrite Ht in Hfld. destruct Hfld as (w & -> & _ & ->). reflexivity.
  - inversion Hw as [? ? ? _ _ _ Hsub]; subst. specialize (Hsub f x d Hf Ht Hx). rewrite Ht in Hty.
    destruct x as [| | | | | | |id2 c2 fs2]; try discriminate. cbn in Hty. apply Nat.eqb_eq in Hty. subst c2.
    destruct (get (f_name f) r) as [v|]; [destruct (ignored v)|]; [rewrite Hfld; reflexivity| |rewrite Hfld; reflexivity].
    rewrite Ht in Hfld. cbn [is_cfg] in Hfld. destruct Hfld as (w & -> & _ & y & Hy & Ho). rewrite Hx in Hy |- *. injection Hy as <-.
    apply (copy_value _ _ _ _ _ Hl2 _ _ _ _ Hsub Ho).
Qed.
(** Not in place, the result shares no configuration object with what was there before, so changing one does not change
    the other. *)
Theorem C60_result_is_new : forall classes ignored left right out, well_typed classes left ->
  override_copy classes ignored left right = Ok out -> objects out = [].
Proof. intros classes ignored left right out Hw H. apply (copy_fresh classes ignored left Hw right out H). Qed.
(** In place, a nested configuration for which values are given is replaced by a new object: whoever holds the old one
    does not see the change. The others stay the same objects. *)
Theorem C60_inplace_replaces_nested : forall classes ignored id c fs right r out after f d,
  well_typed classes (VCfg id c fs) -> In f (classes c) -> f_type f = CCfg d -> right_dict right = Ok r ->
  override_inplace classes ignored (VCfg id c fs) right = (Ok out, after) ->
  match get (f_name f) r with
  | Some v => if ignored v then value_at out [f_name f] = get (f_name f) fs
              else exists w, value_at out [f_name f] = Some w /\ objects w = []
  | None => value_at out [f_name f] = get (f_name f) fs
  end.
Proof.
  intros classes ignored id c fs right r out after f d Hw Hf Ht Hr H.
  destruct (inplace_level _ _ _ _ _ _ _ _ Hw H) as (r2 & fs' & Hr2 & -> & -> & _ & Hfld). rewrite Hr in Hr2. injection Hr2 as <-.
  specialize (Hfld f Hf). unfold field_after in Hfld. cbn [value_at].
  assert (Hid : forall o : option val, option_map (fun x => x) o = o) by (intros [|]; reflexivity). rewrite Hid in Hfld.
  assert (Hsame : get (f_name f) fs' = get (f_name f) fs -> match get (f_name f) fs' with Some w => Some w | None => None end = get (f_name f) fs) by (intros ->; destruct (get (f_name f) fs); reflexivity).
  destruct (get (f_name f) r) as [v|]; [destruct (ignored v)|]; [auto| |auto].
  rewrite Ht in Hfld. cbn [is_cfg] in Hfld. destruct Hfld as (w & -> & _ & y & Hy & Ho). exists w. split; [reflexivity|].
  inversion Hw as [? ? ? _ _ _ Hsub]; subst. apply (copy_fresh classes ignored y (Hsub f y d Hf Ht Hy) v w Ho).
Qed.
(** Settings keep their types, whatever is given and also when the override fails half way in place. *)
Theorem C60_types_kept : forall classes ignored left right,
  well_typed classes left ->
  (forall out, override_copy classes ignored left right = Ok out -> well_typed classes out) /\
  well_typed classes (snd (override_inplace classes ignored left right)).
Proof.
  intros classes ignored left right Hw. split; [intros out H; apply (copy_typed classes ignored left right out Hw H)|].
  destruct left as [| | | | | | |id c fs]; try exact Hw. unfold override_inplace. destruct (right_dict right) as [r|]; [|exact Hw].
  destruct (override_fields _ _ _ _ _) as [e fs'] eqn:Eo. cbn [snd]. inversion Hw as [? ? ? Hn Hnames Hty Hsub]; subst.
  apply (loop_typed classes ignored c id) in Eo; [exact Eo|apply incl_refl|rewrite <- Hnames; exact Hn| |exact Hw].
  intros n g v w Hin Hg. apply in_map_iff in Hin as ([m x] & E & Hin). cbn in E. injection E as <- <-.
  apply (copy_typed classes ignored x v w); [|exact Hg]. destruct x as [| | | | | | |id2 c2 fs2]; try discriminate.
  assert (Hgx : get m fs = Some (VCfg id2 c2 fs2)).
  { clear -Hin Hn. induction fs as [|[a b] fs IH]; [destruct Hin|]. cbn in *. inversion Hn as [|? ? Ha Hn']; subst. destruct Hin as [E|Hin].
    - injection E as -> ->. destruct (str_eq_dec m m); congruence.
    - destruct (str_eq_dec a m) as [->|]; [|apply IH; assumption]. exfalso. apply Ha. apply (in_map fst) in Hin. exact Hin. }
  destruct (field_of classes c fs m _ Hnames Hgx) as (f & Hf & <-). pose proof (Hty f _ Hf Hgx) as Hi. apply isinst_iff in Hi.
  destruct (f_type f) as [| | | | |d] eqn:Et; try discriminate. apply (Hsub f _ d); assumption.
Qed.

(** config.py:7-17: [params] and the configurations it holds (objects 1, 2, 3). *)
Definition ex_classes (c : nat) : list cfield :=
  match c with
  | 0 => [mkField ($"serialize") (CCfg 1) None; mkField ($"store") (CCfg 2) None; mkField ($"model") (CCfg 3) None]
  | 1 => [mkField ($"validate") CBool None]
  | 2 => [mkField ($"on_retouch") CStr None; mkField ($"default_suffix") CStr None]
  | 3 => [mkField ($"auto_clean") CBool None]
  | _ => []
  end.
Definition ex_params : val :=
  VCfg (Some 0) 0 [($"serialize", VCfg (Some 1) 1 [($"validate", VBool false)]);
                   ($"store", VCfg (Some 2) 2 [($"on_retouch", VStr ($"ignore")); ($"default_suffix", VStr ($".sto"))]);
                   ($"model", VCfg (Some 3) 3 [($"auto_clean", VBool true)])].
Definition ex_ignored (v : val) : bool := match v with VNone => true | _ => false end.
Example C60_example :
  let right := VDict [($"store", VDict [($"on_retouch", VStr ($"auto")); ($"default_suffix", VNone)]); ($"model", VNone); ($"other", VInt 1)] in
  well_typed ex_classes ex_params /\ leads ex_classes 0 [$"store"; $"on_retouch"] CStr /\
  override_inplace ex_classes ex_ignored ex_params right =
    (let out := VCfg (Some 0) 0 [($"serialize", VCfg (Some 1) 1 [($"validate", VBool false)]);
                   ($"store", VCfg None 2 [($"on_retouch", VStr ($"auto")); ($"default_suffix", VStr ($".sto"))]);
                   ($"model", VCfg (Some 3) 3 [($"auto_clean", VBool true)])] in (Ok out, out)) /\
  fst (override_inplace ex_classes ex_ignored ex_params (VDict [($"model", VDict [($"auto_clean", VInt 1)])])) = Exn ValueError.
Proof.
  assert (Hw : forall id c fs, NoDup (map fst fs) -> map fst fs = map f_name (ex_classes c) ->
    Forall (fun f => match get (f_name f) fs with Some v => isinst v (f_type f) = true /\ (is_cfg (f_type f) = true -> well_typed ex_classes v) | None => True end) (ex_classes c) ->
    well_typed ex_classes (VCfg id c fs)).
  { intros id c fs Hn Hm HF. rewrite Forall_forall in HF. constructor; try assumption.
    - intros f v Hf Hg. specialize (HF f Hf). rewrite Hg in HF. apply isinst_iff. tauto.
    - intros f v d Hf Ht Hg. specialize (HF f Hf). rewrite Hg, Ht in HF. apply HF. reflexivity. }
  split; [|split; [|split; reflexivity]].
  - assert (Hnd : forall l : list str, (if list_eq_dec str_eq_dec l (nodup str_eq_dec l) then True else False) -> NoDup l).
    { intros l. destruct (list_eq_dec str_eq_dec l (nodup str_eq_dec l)) as [->|]; [intros _; apply NoDup_nodup|intros []]. }
    apply Hw; [apply Hnd; vm_compute; exact I|reflexivity|].
    apply Forall_cons; [|apply Forall_cons; [|apply Forall_cons; [|apply Forall_nil]]]; (split; [reflexivity|intros _]);
      (apply Hw; [apply Hnd; vm_compute; exact I|reflexivity|]); repeat (apply Forall_cons; [split; [reflexivity|discriminate]|]); apply Forall_nil.
  - apply (LeadsN ex_classes 0 (mkField ($"store") (CCfg 2) None) 2); [cbn; tauto|reflexivity|].
    apply (Leads1 ex_classes 2 (mkField ($"on_retouch") CStr None)); [cbn; tauto|reflexivity].
Qed.

(** A boolean is accepted for an integer field with the options 0 and 1. *)
Example C56_accepts_example :
  let decls := [($"verbose", CInt, DDescriptor [VInt 0; VInt 1])] in
  exists fs, init (configclass decls) [VInt 0] = Ok fs /\ NoDup (map (fun d => fst (fst d)) decls) /\
    of_type (VBool true) CInt /\ equal_values (VBool true) (VInt 1) /\
    get ($"verbose") (assign (configclass decls) [($"verbose", VBool true)] fs) = Some (VBool true) /\
    get ($"verbose") (assign (configclass decls) [($"verbose", VInt 2)] fs) = Some (VInt 0).
Proof. eexists. split; [reflexivity|]. split; [repeat constructor; cbn; intuition discriminate|]. repeat split; constructor. Qed.

Print Assumptions C56_types.
Print Assumptions C56_descriptor_accepts.
Print Assumptions C56_options_not_checked.
Print Assumptions C56_descriptor_options.
Print Assumptions C60_override_value.
Print Assumptions C60_inplace_value.
Print Assumptions C60_result_is_new.
Print Assumptions C60_inplace_replaces_nested.
Print Assumptions C60_types_kept.
