(** C101: what [log.config] does to the handlers of the logger. *)
From Coq Require Import List Bool Arith Lia.
From Verif Require Import Base HandlerModel.
Import ListNotations.

(** Spec: the arguments that are refused, in words of [config]'s documentation. *)
Definition refused (a : args) : Prop :=
  match a_handlers a with
  | None => a_stream a <> None /\ a_file a <> None
  | Some _ => a_stream a <> None \/ a_file a <> None
  end.
(** [config] looks at its arguments: it is forced or there are no handlers. *)
Definition takes_effect (a : args) (s : st) : Prop := a_force a = true \/ s_attached s = [].
(** The level afterwards. *)
Definition level_after (a : args) (s : st) : nat := match a_level a with Some l => l | None => s_level s end.
(** The handlers in a list, each once, in the order they come first. *)
Fixpoint distinct (seen l : list nat) : list nat :=
  match l with [] => [] | h :: l => if in_dec Nat.eq_dec h seen then distinct seen l else h :: distinct (seen ++ [h]) l end.

Lemma conflict_iff a : conflict a = true <-> refused a.
Proof.
  unfold conflict, refused, is_some. destruct (a_handlers a), (a_stream a), (a_file a); cbn; split; intros H;
    try reflexivity; try discriminate; try (split; discriminate); try (left; discriminate); try (right; discriminate);
    try (destruct H; congruence).
Qed.
Lemma closing f l : forall h, (fold_left close l f) h
  = if in_dec Nat.eq_dec h l then mkH (h_dest (f h)) (h_fmt (f h)) true else f h.
Proof.
  revert f. induction l as [|x l IH]; intros f h; [reflexivity|]. cbn [fold_left]. rewrite IH. unfold close, upd.
  destruct (in_dec Nat.eq_dec h (x :: l)) as [I|I]; destruct (in_dec Nat.eq_dec h l) as [J|J]; destruct (Nat.eqb_spec h x) as [E|E]; subst; cbn; try reflexivity.
  - exfalso. destruct I as [I|I]; congruence.
  - exfalso. apply I. right. exact J.
  - exfalso. apply I. right. exact J.
  - exfalso. apply I. left. reflexivity.
Qed.
Lemma effect_none a s : takes_effect a s ->
  s_attached (if a_force a then close_all s else s) = [].
Proof. intros [H|H]; [rewrite H; reflexivity|]. destruct (a_force a); [reflexivity | exact H]. Qed.

(** With handlers there and without force only the level is set; the arguments are not looked at. *)
Theorem C101_nothing_without_force : forall opens a s, a_force a = false -> s_attached s <> [] ->
  config opens a s = (Ok tt, mkSt (s_heap s) (s_next s) (s_attached s) (level_after a s)).
Proof.
  intros opens a s Hf Hs. unfold config. rewrite Hf. destruct (s_attached s) as [|x l] eqn:E; [congruence|].
  unfold set_level, level_after. rewrite E. reflexivity.
Qed.
(** It fails exactly if it takes effect with arguments that are refused or a file that cannot be opened. Then the level stays
    and, if it was forced, the logger is left without handlers and those it had are closed. *)
Theorem C101_fails_iff : forall opens a s,
  (exists e, fst (config opens a s) = Exn e) <->
  takes_effect a s /\ (refused a \/ (a_handlers a = None /\ exists n, a_file a = Some (Some n) /\ opens n = false)).
Proof.
  intros opens a s. unfold config. pose proof (conflict_iff a) as HC.
  assert (T : s_attached (if a_force a then close_all s else s) = [] <-> takes_effect a s).
  { split; [|apply effect_none]. unfold takes_effect. destruct (a_force a); [intros _; left; reflexivity | intros H; right; exact H]. }
  destruct (s_attached (if a_force a then close_all s else s)) as [|x l].
  - destruct (conflict a) eqn:Ec.
    + split; [intros _; split; [apply T; reflexivity | left; apply HC; reflexivity] | intros _; eexists; reflexivity].
    + unfold handlers_for. destruct (a_handlers a) as [l|] eqn:Eh.
      * cbn. split; [intros [e E]; discriminate|]. intros [_ [R|[R _]]]; [apply HC in R|]; discriminate.
      * destruct (a_file a) as [[n|]|] eqn:Ef; cbn [bind fst].
        -- destruct (opens n) eqn:Eo; cbn [bind fst].
           ++ split; [intros [e E]; discriminate|]. intros [_ [R|[_ [m [R1 R2]]]]]; [apply HC in R; discriminate|]. inversion R1; congruence.
           ++ split; [|intros _; eexists; reflexivity]. intros _. split; [apply T; reflexivity|]. right. split; [reflexivity|]. exists n. auto.
        -- split; [intros [e E]; discriminate|]. intros [_ [R|[_ [m [R1 R2]]]]]; [apply HC in R|]; discriminate.
        -- split; [intros [e E]; discriminate|]. intros [_ [R|[_ [m [R1 R2]]]]]; [apply HC in R|]; discriminate.
  - cbn. split; [intros [e E]; discriminate | intros [X _]; apply T in X; discriminate].
Qed.
Theorem C101_after_failure : forall opens a s e s', config opens a s = (Exn e, s') ->
  s_attached s' = [] /\ s_level s' = s_level s /\ s_next s' = s_next s
  /\ forall h, s_heap s' h = if in_dec Nat.eq_dec h (s_attached s) then mkH (h_dest (s_heap s h)) (h_fmt (s_heap s h)) true else s_heap s h.
Proof.
  intros opens a s e s' H. unfold config in H.
  set (s1 := if a_force a then close_all s else s) in *.
  assert (K : s_attached s1 = [] -> s_level s1 = s_level s /\ s_next s1 = s_next s /\
     forall h, s_heap s1 h = if in_dec Nat.eq_dec h (s_attached s) then mkH (h_dest (s_heap s h)) (h_fmt (s_heap s h)) true else s_heap s h).
  { unfold s1. destruct (a_force a).
    - intros _. repeat (split; [reflexivity|]). intros h. apply closing.
    - intros ->. repeat (split; [reflexivity|]). reflexivity. }
  destruct (s_attached s1) as [|x l] eqn:E; [|discriminate].
  assert (X : s' = s1).
  { destruct (conflict a); [inversion H; reflexivity|]. destruct (handlers_for opens a s1) as [[l s2]|]; inversion H; reflexivity. }
  subst s'. split; [exact E | apply K; reflexivity].
Qed.

Lemma attach_other f s h q : q <> h -> s_heap (attach f s h) q = s_heap s q.
Proof. intros N. unfold attach, upd. cbn. destruct (h_fmt (s_heap s h)); [reflexivity|]. apply Nat.eqb_neq in N. rewrite N. reflexivity. Qed.
Definition formatted (f : format) (x : handler) : handler :=
  mkH (h_dest x) (Some (match h_fmt x with Some g => g | None => f end)) (h_closed x).
Lemma attach_self f s h : s_heap (attach f s h) h = formatted f (s_heap s h).
Proof.
  unfold attach, upd, formatted. cbn. destruct (s_heap s h) as [d [g|] c] eqn:E; cbn; [rewrite E; reflexivity|].
  rewrite Nat.eqb_refl. reflexivity.
Qed.
Lemma attach_all f l : forall s,
  s_attached (fold_left (attach f) l s) = s_attached s ++ distinct (s_attached s) l
  /\ s_level (fold_left (attach f) l s) = s_level s /\ s_next (fold_left (attach f) l s) = s_next s
  /\ forall h, s_heap (fold_left (attach f) l s) h = if in_dec Nat.eq_dec h l then formatted f (s_heap s h) else s_heap s h.
Proof.
  induction l as [|x l IH]; intros s.
  - cbn. rewrite app_nil_r. repeat (split; [reflexivity|]). reflexivity.
  - cbn [fold_left]. destruct (IH (attach f s x)) as (A & B & C & D). rewrite A, B, C.
    split; [|split; [reflexivity | split; [reflexivity|]]].
    + cbn [distinct]. unfold attach at 1 2. cbn [s_attached]. destruct (in_dec Nat.eq_dec x (s_attached s)); [reflexivity|].
      rewrite <- app_assoc. reflexivity.
    + intros h. rewrite D. destruct (Nat.eq_dec h x) as [->|N].
      * rewrite attach_self. destruct (in_dec Nat.eq_dec x (x :: l)) as [_|X]; [|exfalso; apply X; left; reflexivity].
        destruct (in_dec Nat.eq_dec x l); [|reflexivity]. unfold formatted. cbn. destruct (h_fmt (s_heap s x)); reflexivity.
      * rewrite attach_other by exact N. destruct (in_dec Nat.eq_dec h l) as [I|I]; destruct (in_dec Nat.eq_dec h (x :: l)) as [J|J]; try reflexivity.
        -- exfalso. apply J. right. exact I.
        -- exfalso. destruct J as [J|J]; congruence.
Qed.

(** Without handlers given: exactly one new handler, to the file if one is named and otherwise for the stream, with the format
    asked for (by default without the time, also for files); every handler attached before a forced call is closed. *)
Theorem C101_one_new_handler : forall opens a s s', (forall h, In h (s_attached s) -> h < s_next s) ->
  takes_effect a s -> a_handlers a = None -> config opens a s = (Ok tt, s') ->
  s_attached s' = [s_next s] /\ s_level s' = level_after a s
  /\ s_heap s' (s_next s) = mkH (match a_file a with Some (Some n) => DFile n | _ => DStream (a_stream a) (a_rich a) end)
       (Some (match a_format a with Some f => f | None => if a_rich a then FDefault else FLevel end)) false
  /\ forall h, h < s_next s -> s_heap s' h
       = if in_dec Nat.eq_dec h (s_attached s) then mkH (h_dest (s_heap s h)) (h_fmt (s_heap s h)) true else s_heap s h.
Proof.
  intros opens a s s' Hlt T Hh H. unfold config in H.
  set (s1 := if a_force a then close_all s else s) in *.
  assert (E : s_attached s1 = []) by (apply effect_none; exact T). rewrite E in H.
  assert (K : s_level s1 = s_level s /\ s_next s1 = s_next s /\
     forall h, s_heap s1 h = if in_dec Nat.eq_dec h (s_attached s) then mkH (h_dest (s_heap s h)) (h_fmt (s_heap s h)) true else s_heap s h).
  { revert E. unfold s1. destruct (a_force a).
    - intros _. repeat (split; [reflexivity|]). intros h. apply closing.
    - intros E. rewrite E. repeat (split; [reflexivity|]). reflexivity. }
  destruct K as (K1 & K2 & K3).
  destruct (conflict a); [discriminate|]. unfold handlers_for in H. rewrite Hh in H.
  destruct (match a_file a with Some (Some n) => if opens n then Ok (DFile n) else Exn OSError | _ => Ok (DStream (a_stream a) (a_rich a)) end)
    as [d|e] eqn:Ed; cbn [bind] in H; [|discriminate].
  assert (Hd : d = match a_file a with Some (Some n) => DFile n | _ => DStream (a_stream a) (a_rich a) end).
  { destruct (a_file a) as [[n|]|]; [destruct (opens n)| |]; inversion Ed; reflexivity. }
  set (s2 := mkSt (upd (s_heap s1) (s_next s1) (mkH d None false)) (S (s_next s1)) (s_attached s1) (s_level s1)) in *.
  destruct (attach_all (format_for a) [s_next s1] s2) as (A & B & C & D).
  assert (Hs' : s' = set_level a (fold_left (attach (format_for a)) [s_next s1] s2)) by congruence.
  rewrite Hs'. clear H Hs'. unfold set_level. cbn [s_attached s_level s_heap]. rewrite A. unfold s2 at 1 2. cbn [s_attached]. rewrite E.
  split; [cbn; rewrite K2; reflexivity|]. split; [unfold level_after; rewrite B; unfold s2; cbn [s_level]; rewrite K1; reflexivity|]. split.
  - rewrite D. rewrite <- K2. destruct (in_dec Nat.eq_dec (s_next s1) [s_next s1]) as [_|X]; [|exfalso; apply X; left; reflexivity].
    unfold s2, upd. cbn. rewrite Nat.eqb_refl. unfold formatted, format_for. cbn. rewrite Hd. reflexivity.
  - intros h Hl. rewrite D. destruct (in_dec Nat.eq_dec h [s_next s1]) as [[X|[]]|X]; [lia|].
    unfold s2, upd. cbn [s_heap]. destruct (Nat.eqb_spec h (s_next s1)); [lia|]. apply K3.
Qed.
(** With handlers given: exactly these, each once. One that has a formatter keeps it whatever the format; one that was attached
    before a forced call is attached again, closed. *)
Theorem C101_handlers_given : forall opens a s l, takes_effect a s -> a_handlers a = Some l -> ~ refused a ->
  exists s', config opens a s = (Ok tt, s')
  /\ (forall h, In h (s_attached s') <-> In h l) /\ NoDup (s_attached s') /\ s_level s' = level_after a s
  /\ forall h, h_dest (s_heap s' h) = h_dest (s_heap s h)
       /\ (h_closed (s_heap s' h) = true <-> h_closed (s_heap s h) = true \/ In h (s_attached s))
       /\ (In h l -> h_fmt (s_heap s' h) = Some (match h_fmt (s_heap s h) with Some g => g
             | None => match a_format a with Some f => f | None => if a_rich a then FDefault else FLevel end end))
       /\ (~ In h l -> h_fmt (s_heap s' h) = h_fmt (s_heap s h)).
Proof.
  intros opens a s l T Hh HR. unfold config.
  set (s1 := if a_force a then close_all s else s).
  assert (E : s_attached s1 = []) by (apply effect_none; exact T). rewrite E.
  assert (K : s_level s1 = s_level s /\
     forall h, s_heap s1 h = if in_dec Nat.eq_dec h (s_attached s) then mkH (h_dest (s_heap s h)) (h_fmt (s_heap s h)) true else s_heap s h).
  { revert E. unfold s1. destruct (a_force a).
    - intros _. split; [reflexivity|]. intros h. apply closing.
    - intros E. rewrite E. split; reflexivity. }
  destruct K as (K1 & K3).
  destruct (conflict a) eqn:Ec; [exfalso; apply HR, conflict_iff; exact Ec|]. unfold handlers_for. rewrite Hh.
  eexists. split; [reflexivity|]. unfold set_level. cbn [s_attached s_level s_heap].
  destruct (attach_all (format_for a) l s1) as (A & B & C & D). rewrite A, B, E. cbn [app].
  assert (DI : forall l seen h, In h (distinct seen l) <-> In h l /\ ~ In h seen).
  { clear. induction l as [|x l IH]; intros seen h; cbn; [tauto|]. destruct (in_dec Nat.eq_dec x seen) as [I|I].
    - rewrite IH. split; [tauto|]. intros [[->|X] Y]; [contradiction | split; assumption].
    - cbn. rewrite IH, in_app_iff. cbn. split.
      + intros [->|[X Y]]; [split; [left; reflexivity | exact I] | tauto].
      + intros [[->|X] Y]; [left; reflexivity|]. destruct (Nat.eq_dec x h) as [->|N]; [left; reflexivity|]. right. tauto. }
  assert (DN : forall l seen, NoDup (distinct seen l)).
  { clear -DI. induction l as [|x l IH]; intros seen; cbn; [constructor|]. destruct (in_dec Nat.eq_dec x seen); [apply IH|].
    constructor; [|apply IH]. rewrite DI, in_app_iff. cbn. tauto. }
  split; [intros h; rewrite DI; cbn; tauto|]. split; [apply DN|]. split; [unfold level_after; rewrite K1; reflexivity|].
  intros h. rewrite D, K3. unfold formatted, format_for.
  destruct (in_dec Nat.eq_dec h l) as [I|I]; destruct (in_dec Nat.eq_dec h (s_attached s)) as [J|J]; cbn;
    (split; [reflexivity|]); split; try tauto; split; intros; try contradiction; try reflexivity.
Qed.

(** Messages always have somewhere to go: a handler is attached when they are sent, in every state. *)
Theorem C101_message_handled : forall opens s,
  fst (message opens s) <> [] /\ s_attached (snd (message opens s)) = fst (message opens s)
  /\ (s_attached s <> [] -> snd (message opens s) = s) /\ s_level (snd (message opens s)) = s_level s.
Proof.
  intros opens s. unfold message. destruct (s_attached s) as [|x l] eqn:E.
  - cbn [fst snd]. unfold config. cbn. split; [discriminate|]. split; [reflexivity|]. split; [congruence | reflexivity].
  - cbn [fst snd]. rewrite E. split; [discriminate|]. split; [reflexivity|]. split; reflexivity.
Qed.

(** In every program of [config] (failing or not), messages and new handlers: attached handlers have a formatter, and a handler
    made by the library is attached or closed, so none stays open unseen. *)
Definition inv (s : st) : Prop :=
  (forall h, In h (s_attached s) -> h_fmt (s_heap s h) <> None)
  /\ (forall h, h < s_next s -> h_dest (s_heap s h) <> DUser -> In h (s_attached s) \/ h_closed (s_heap s h) = true)
  /\ (forall h, s_next s <= h -> h_dest (s_heap s h) = DUser)
  /\ (forall h, In h (s_attached s) -> h < s_next s).
Lemma inv_closed s : inv s -> inv (close_all s).
Proof.
  intros (A & B & C & L). unfold inv, close_all. cbn [s_attached s_heap s_next]. split; [intros h []|]. split; [|split; [|intros h []]].
  - intros h Hl. rewrite closing. destruct (in_dec Nat.eq_dec h (s_attached s)) as [I|I]; cbn; [auto|]. intros X. right.
    destruct (B h Hl X) as [Y|Y]; [contradiction | exact Y].
  - intros h Hl. rewrite closing. destruct (in_dec Nat.eq_dec h (s_attached s)); cbn; apply C; exact Hl.
Qed.
Lemma inv_attach f l : forall s, (forall h, In h l -> h < s_next s) -> inv s -> inv (fold_left (attach f) l s).
Proof.
  induction l as [|x l IH]; intros s HX HI; [exact HI|]. cbn [fold_left].
  apply IH; [intros h Hh; apply HX; right; exact Hh|]. destruct HI as (A & B & C & L).
  assert (D : forall h, h_dest (s_heap (attach f s x) h) = h_dest (s_heap s h) /\ h_closed (s_heap (attach f s x) h) = h_closed (s_heap s h)
              /\ (h_fmt (s_heap s h) <> None \/ h = x -> h_fmt (s_heap (attach f s x) h) <> None)).
  { intros h. destruct (Nat.eq_dec h x) as [->|N].
    - rewrite attach_self. unfold formatted. cbn. split; [reflexivity|]. split; [reflexivity|]. discriminate.
    - rewrite attach_other by exact N. split; [reflexivity|]. split; [reflexivity|]. intros [X|X]; [exact X | contradiction]. }
  assert (M : forall h, In h (s_attached (attach f s x)) <-> In h (s_attached s) \/ h = x).
  { intros h. unfold attach. cbn [s_attached]. destruct (in_dec Nat.eq_dec x (s_attached s)) as [I|I].
    - split; [auto|]. intros [X| ->]; assumption.
    - rewrite in_app_iff. cbn. split; [intros [X|[X|[]]]; auto | intros [X|X]; auto]. }
  unfold inv. split; [|split; [|split; [|intros h X; apply M in X; destruct X as [X| ->]; [apply L; exact X | apply HX; left; reflexivity]]]].
  - intros h X. apply M in X. apply D. destruct X as [X|X]; [left; apply A; exact X | right; exact X].
  - intros h Hl X. destruct (D h) as (D1 & D2 & _). rewrite D1 in X. rewrite D2, M.
    destruct (B h Hl X) as [Y|Y]; auto.
  - intros h Hl. destruct (D h) as (D1 & _). rewrite D1. apply C. exact Hl.
Qed.
Lemma inv_config opens a s : exist a s = true -> inv s -> inv (snd (config opens a s)).
Proof.
  intros HX HI. unfold config. set (s1 := if a_force a then close_all s else s).
  assert (H1 : inv s1) by (unfold s1; destruct (a_force a); [apply inv_closed|]; exact HI).
  assert (HN : s_next s1 = s_next s) by (unfold s1; destruct (a_force a); reflexivity). clearbody s1.
  destruct (s_attached s1) as [|x l] eqn:E; [|exact H1].
  destruct (conflict a); [exact H1|]. destruct (handlers_for opens a s1) as [[l s2]|e] eqn:Eh; [|exact H1].
  unfold handlers_for in Eh. destruct (a_handlers a) as [l'|] eqn:Ea.
  - inversion Eh; subst. refine (inv_attach (format_for a) l s2 _ H1). unfold exist in HX. rewrite Ea in HX.
    intros h Hh. rewrite forallb_forall in HX. apply HX in Hh. apply Nat.ltb_lt in Hh. lia.
  - destruct (match a_file a with Some (Some n) => if opens n then Ok (DFile n) else Exn OSError | _ => Ok (DStream (a_stream a) (a_rich a)) end) as [d|]; cbn [bind] in Eh; [|discriminate].
    inversion Eh; subst. clear Eh. cbn [fold_left snd]. destruct H1 as (A & B & C & L).
    set (s2 := mkSt _ _ _ _).
    assert (G : forall h, h <> s_next s1 -> s_heap (attach (format_for a) s2 (s_next s1)) h = s_heap s1 h).
    { intros h N. rewrite attach_other by exact N. unfold s2, upd. cbn. apply Nat.eqb_neq in N. rewrite N. reflexivity. }
    assert (M : s_attached (attach (format_for a) s2 (s_next s1)) = [s_next s1]) by (unfold attach, s2; cbn; rewrite E; reflexivity).
    unfold inv, set_level. cbn [s_attached s_heap s_next]. rewrite M. split; [|split; [|split; [|intros h [<-|[]]; apply le_n]]].
    + intros h [<-|[]]. rewrite attach_self. discriminate.
    + intros h Hl X. destruct (Nat.eq_dec h (s_next s1)) as [->|N]; [left; left; reflexivity|]. right. rewrite (G h N) in *.
      unfold attach, s2 in Hl. cbn in Hl. destruct (B h ltac:(lia) X) as [Y|Y]; [rewrite E in Y; destruct Y | exact Y].
    + intros h Hl. unfold attach, s2 in Hl. cbn in Hl. rewrite (G h) by lia. apply C. lia.
Qed.
Theorem C101_no_open_leftovers : forall opens l h, let s := run opens l in
  (In h (s_attached s) -> h_fmt (s_heap s h) <> None)
  /\ (h_dest (s_heap s h) <> DUser -> In h (s_attached s) \/ h_closed (s_heap s h) = true).
Proof.
  intros opens l h. cbv zeta.
  assert (HI : inv (run opens l)).
  { unfold run. assert (H0 : inv start) by (unfold inv, start; cbn; split; [intros ? []|]; split; [intros; lia|]; split; [reflexivity | intros ? []]).
    revert H0. generalize start. induction l as [|o l IH]; intros s Hs; [exact Hs|]. cbn [fold_left]. apply IH.
    destruct o as [f|a|]; cbn [step].
    - destruct Hs as (A & B & C & L). unfold inv. cbn [s_attached s_heap s_next]. unfold upd. split; [|split; [|split]].
      + intros q Hq. pose proof (L q Hq). destruct (Nat.eqb_spec q (s_next s)); [lia | apply A; exact Hq].
      + intros q Hq. destruct (Nat.eqb_spec q (s_next s)) as [->|N]; [cbn; congruence | apply B; lia].
      + intros q Hq. destruct (Nat.eqb_spec q (s_next s)); [reflexivity | apply C; lia].
      + intros q Hq. pose proof (L q Hq). lia.
    - destruct (exist a s) eqn:X; [apply inv_config; [exact X|] |]; exact Hs.
    - unfold message. destruct (s_attached s); cbn [snd]; [apply inv_config; [reflexivity|] |]; exact Hs. }
  destruct HI as (A & B & C & L). split; [apply A|]. intros X. destruct (Nat.lt_ge_cases h (s_next (run opens l))) as [K|K].
  - apply B; assumption.
  - rewrite (C h K) in X. congruence.
Qed.

(** A handler without a formatter; a call that is refused although the first one was accepted, and a message after it. *)
Definition given (l : list nat) (f : bool) : args := mkArgs None None None None (Some l) f true.
Definition both (f : bool) : args := mkArgs (Some 20) (Some (Some 1)) (Some 2) None None f true.
Example C101_ex : forall opens,
  let s := run opens [NewHandler None; Config (given [0; 0] false)] in
  s_attached s = [0] /\ h_fmt (s_heap s 0) = Some FDefault
  /\ fst (config opens (both false) s) = Ok tt
  /\ fst (config opens (both true) s) = Exn ValueError
  /\ s_attached (snd (config opens (both true) s)) = []
  /\ h_closed (s_heap (snd (config opens (both true) s)) 0) = true
  /\ fst (message opens (snd (config opens (both true) s))) = [1]
  /\ s_attached (snd (config opens (given [0] true) s)) = [0]
  /\ h_closed (s_heap (snd (config opens (given [0] true) s)) 0) = true
  /\ takes_effect (both true) s /\ refused (both true) /\ ~ refused (given [0] true).
Proof.
  intros opens. cbv zeta. repeat (split; [reflexivity|]). split; [left; reflexivity|]. split; [split; discriminate|].
  cbn. intros [X|X]; apply X; reflexivity.
Qed.
Example C101_new_ex : forall opens, exists s',
  config opens (mkArgs None None (Some 4) None None false false) start = (Ok tt, s')
  /\ s_heap s' 0 = mkH (DStream (Some 4) false) (Some FLevel) false.
Proof. intros opens. eexists. split; reflexivity. Qed.

Print Assumptions C101_nothing_without_force.
Print Assumptions C101_fails_iff.
Print Assumptions C101_after_failure.
Print Assumptions C101_one_new_handler.
Print Assumptions C101_handlers_given.
Print Assumptions C101_message_handled.
Print Assumptions C101_no_open_leftovers.
