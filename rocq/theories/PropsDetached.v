(** Records read without a context: C83. *)
From Coq Require Import List Ascii String Bool Arith ZArith Lia.
From Verif Require Import Base PosixModel FsModel PathModel SerialModel StoreModel StoreFrame StoreMount StoreSpec StoreLocal StorePlace
     StoreRecord StoreExample PathSpec MountSpec DirSpec PosixProof FsProof DirProof TargetProof MountProof HistoryProof PathFacts PropsRecord.
Import ListNotations.

(** The value that an access to the content of a record gives, and the state after it. *)
Definition accessed (E : senv) (n : nat) (o : obj) (w : world) : res obj * world :=
  match content_of E n o w with (Ok (v, _), w') => (Ok v, w') | (Exn e, w') => (Exn e, w') end.

Lemma de_form_ok E n cx d w a b c we re w' : de_rec E (depth E n) cx d w = (Ok (ORec a b c we re), w') ->
  deserialize E (S n) cx (typed n_record (PDict d)) w = (Ok (ORec a b c we re), w').
Proof.
  intros H. unfold deserialize. cbn [depth f_de]. unfold typed, de_body.
  match goal with |- context [assoc_a (AStr SER_TYPE) ?l] => assert (Ha : assoc_a (AStr SER_TYPE) l = Some (PAtom (AStr n_record))) by reflexivity end.
  rewrite Ha. assert (Hr : ser_ty E n_record = Some DRec) by reflexivity. rewrite Hr.
  match goal with |- context [assoc_a (AStr SER_CONTENT) ?l] => assert (Hb : assoc_a (AStr SER_CONTENT) l = Some (PDict d)) by reflexivity end.
  rewrite Hb. unfold mbind. unfold de_object at 1. unfold mbind, attempt. rewrite H. reflexivity.
Qed.
Lemma de_form_exn E n cx d w e w' : de_rec E (depth E n) cx d w = (Exn e, w') -> is_ser_error e = true ->
  deserialize E (S n) cx (typed n_record (PDict d)) w = (Exn e, w').
Proof.
  intros H He. unfold deserialize. cbn [depth f_de]. unfold typed, de_body.
  match goal with |- context [assoc_a (AStr SER_TYPE) ?l] => assert (Ha : assoc_a (AStr SER_TYPE) l = Some (PAtom (AStr n_record))) by reflexivity end.
  rewrite Ha. assert (Hr : ser_ty E n_record = Some DRec) by reflexivity. rewrite Hr.
  match goal with |- context [assoc_a (AStr SER_CONTENT) ?l] => assert (Hb : assoc_a (AStr SER_CONTENT) l = Some (PDict d)) by reflexivity end.
  rewrite Hb. unfold mbind. unfold de_object at 1. unfold mbind, attempt. rewrite H, He. reflexivity.
Qed.
Lemma accessed_same E n ty t base cx t1 p1 we1 re1 t2 p2 we2 re2 w :
  accessed E n (ORec (OUnloaded ty t base cx) t1 p1 we1 re1) w = accessed E n (ORec (OUnloaded ty t base cx) t2 p2 we2 re2) w.
Proof.
  unfold accessed, content_of, rec_load, mbind. destruct (ctx_read E (depth E n) cx t ty w) as [[x|e] w1]; [|reflexivity].
  destruct x; reflexivity.
Qed.
Definition detached (s : str) (ty : option str) : obj :=
  ORec (OUndefined ty) (from_path s) false None (Some (EMark (mkMark MUnReadable ty))).
Lemma de_detached E m s ty w : s_validate E = false -> deserialize E (S m) None (record_form s ty) w = (Ok (detached s ty), w).
Proof. intros Hv. apply de_form_ok. unfold de_rec, mbind, invalid_found. rewrite Hv. destruct ty; reflexivity. Qed.

(** ** C83 *)
(** Deserializing a record without a [Context] (as [deserialize] does by default): with validation it raises,
    without it there is a record that knows its type and target but not its content. *)
Theorem C83_deserialize_without_context : forall E m s ty w,
  (s_validate E = true -> deserialize E (S m) None (record_form s ty) w = (Exn ValidationError, w)) /\
  (s_validate E = false -> exists o, deserialize E (S m) None (record_form s ty) w = (Ok o, w) /\
     rec_isvalid o = false /\ rec_exists o = true /\ forall n w1, content_of E n o w1 = (Ok (OUndefined ty, o), w1)).
Proof.
  intros E m s ty w. split; intros Hv.
  - apply de_form_exn; [|reflexivity]. unfold de_rec, mbind, invalid_found. rewrite Hv. destruct ty; reflexivity.
  - exists (detached s ty). split; [apply de_detached; exact Hv|]. split; [reflexivity|]. split; [reflexivity|]. intros n w1. reflexivity.
Qed.

(** Saving such a record later with a [Context], at a place that nothing else was given in this context: no file
    changes; with validation the save raises, without it the form written still names the same file and type,
    so that reading the form (with any context, in any later process) gives a record whose accesses do exactly
    what accesses of the record originally saved do. *)
Theorem C83_detached_record_keeps_its_data : forall E E0 m n cx dir comps s ty cs w w0 o,
  absolute (s_cwd E) -> absolute dir -> no_dotdot dir -> well_formed (w_fs w) -> s_limit E = None ->
  In (s_retouch E) unattended -> s_retouch E <> $"quit" -> context_at E w cx dir comps ->
  places (from_path s) cs -> join2 (fst (path_split s)) (snd (path_split s)) = s -> unclaimed w cx (comps ++ cs) ->
  (forall q, inside (location (s_cwd E) dir ++ comps ++ removelast cs) q -> file_at (w_fs w) q = None) ->
  deserialize E0 (S m) None (record_form s ty) w0 = (Ok o, w0) ->
  exists r w', serialize E (S n) (Some cx) o w = (r, w') /\ (forall q, file_at (w_fs w') q = file_at (w_fs w) q) /\
    (s_validate E = true -> r = Exn ValidationError) /\
    (s_validate E = false -> exists o' p, r = Ok (o', p) /\
       forall E2 k cx2 dir2 w2, ctx_dir cx2 w2 = (Ok dir2, w2) ->
         exists r1 r2, deserialize E2 (S k) (Some cx2) (record_form s ty) w2 = (Ok r1, w2) /\
           deserialize E2 (S k) (Some cx2) p w2 = (Ok r2, w2) /\
           forall k2 w3, accessed E2 k2 r2 w3 = accessed E2 k2 r1 w3).
Proof.
  intros E E0 m n cx dir comps s ty cs w w0 o Hc Hd Hnd Hw Hl Hu Hnq Hcx Hp Hj Hun Hfree Hde.
  assert (Ho : o = detached s ty).
  { destruct (s_validate E0) eqn:Hv0.
    - destruct (C83_deserialize_without_context E0 m s ty w0) as [Hx _]. rewrite (Hx Hv0) in Hde. discriminate.
    - rewrite de_detached in Hde by exact Hv0. congruence. }
  subst o. clear Hde.
  destruct (context_at_ok E w cx dir comps Hc Hd Hw Hcx) as [Hok Hs].
  pose proof (location_no_dotdot (s_cwd E) dir Hd (no_dotdot_comps dir Hnd)) as HD.
  destruct (ctx_write_fwd E (c_mnt cx) dir (depth E n) cx comps (from_path s) cs (OUndefined ty) w Hc Hd Hl Hu Hnq HD Hok Hs Hp)
    as (p & u & n' & w2 & local & out & Hn' & Hg & Hok2 & Hpl & (z & Hz1 & Hz2 & Hz3) & Hsl & Hcw).
  { intros q Hq. apply Hfree. apply is_prefix_iff in Hq as [r Hr]. exists r. exact Hr. }
  unfold write_storable in Hcw. change (is_storable E (OUndefined ty)) with false in Hcw. unfold raise in Hcw. cbn [is_ser_error] in Hcw.
  pose proof Hg as (m0 & touched & fs' & G1 & G2 & G3 & G4 & G5 & G6 & G7 & G8 & G9 & G10 & G11).
  assert (Hrest : comps ++ removelast cs ++ [n'] = comps ++ cs).
  { apply G11. intros v r Hv Hr. exact (Hun m0 v r G1 Hv Hr). }
  apply app_inv_head in Hrest.
  assert (Hfile : forall q, file_at (w_fs w2) q = file_at (w_fs w) q) by (intros q; rewrite G6; apply G7).
  assert (Hcd : exists d2, ctx_dir cx w = (Ok d2, w)).
  { destruct Hok as [(m3 & M1 & M2 & _) _]. unfold ctx_dir, mbind, m_dir_of. rewrite M1. eexists. reflexivity. }
  destruct Hcd as [d2 Hcd].
  assert (Hser : ser_rec E (depth E n) (Some cx) (OUndefined ty) (from_path s) false None (Some (EMark (mkMark MUnReadable ty))) w
     = if s_validate E then (Exn ValidationError, w2) else
       (Ok (ORec (OUndefined ty) out false (Some (EMark (mkMark MExcUnWritable None))) (Some (EMark (mkMark MUnReadable ty))),
            PDict [(key "target", PAtom (AStr z)); (key "sto_type", opt_str ty);
                   (key "exceptions", PDict [(key "write", exc_pser (EMark (mkMark MExcUnWritable None))); (key "read", exc_pser (EMark (mkMark MUnReadable ty)))])]), w2)).
  { unfold ser_rec, rec_store. unfold mbind at 1. unfold mbind at 1. rewrite Hcd. cbn [negb andb orb].
    unfold mbind at 1. unfold ret at 1. unfold mbind at 1.
    assert (Ht : rec_target E (OUndefined ty) (from_path s) w = (Ok (from_path s), w)).
    { unfold rec_target, from_path. destruct (path_split s), (splitext _). reflexivity. }
    rewrite Ht. unfold mbind at 1. rewrite Hcw. unfold invalid_found, mbind, ret. destruct (s_validate E); [reflexivity|]. rewrite Hz1. reflexivity. }
  destruct (s_validate E) eqn:Hv.
  - exists (Exn ValidationError), w2. split; [|split; [exact Hfile|split; [reflexivity|discriminate]]].
    unfold serialize. change (f_ser (depth E (S n))) with (ser_body E (depth E n)). unfold ser_body, detached. cbn [ser_method].
    unfold mbind at 1. unfold attempt. rewrite Hser. reflexivity.
  - eexists _, w2. split; [|split; [exact Hfile|split; [discriminate|]]].
    + unfold serialize. change (f_ser (depth E (S n))) with (ser_body E (depth E n)). unfold ser_body, detached. cbn [ser_method].
      unfold mbind at 1. unfold attempt. rewrite Hser. unfold ret. reflexivity.
    + intros _. eexists _, _. split; [reflexivity|]. intros E2 k cx2 dir2 w3 Hcd2.
      assert (Hzs : z = s).
      { assert (Hcw' : exists x o2, ctx_write E (depth E n) cx (from_path s) (OUndefined ty) w = (Ok (out, x, o2), w2)).
        { eexists _, _. rewrite Hcw. unfold invalid_found, mbind, ret. rewrite Hv. reflexivity. }
        destruct Hcw' as (x & o2 & Hcw'). apply ctx_write_gen in Hcw' as (s0 & local0 & nt & n0 & w4 & F1 & _ & _ & F4 & _).
        rewrite (proper_from_path s Hj) in F1. injection F1 as <-.
        destruct Hpl as (sd & nm & P1 & P2 & _ & _ & _ & P6). destruct Hp as (sd0 & nm0 & Q1 & Q2 & _ & _ & _ & Q6).
        assert (Hsd : sd = sd0).
        { assert (Hx : t_subdir out = t_subdir (from_path s)).
          { unfold update, Target in F4. destruct (splitext n0) as [a b]. cbn in F4. injection F4 as <-. unfold from_path. destruct (path_split s), (splitext l0). reflexivity. }
          congruence. }
        assert (Hnm : nm = nm0). { rewrite Hrest, Q6, Hsd in P6. apply app_inj_tail in P6 as [_ P6]. congruence. }
        pose proof (proper_from_path s Hj) as Hfs. rewrite (fspath_name _ _ _ Q1 Q2) in Hfs. rewrite (fspath_name _ _ _ P1 P2) in Hz1. congruence. }
      subst z. unfold emit. eexists _, _. split; [apply de_record_form; exact Hcd2|]. split.
      * apply de_form_ok. unfold de_rec. unfold mbind at 1. unfold mbind at 1.
        match goal with |- context [get "target" ?l] => assert (Hg1 : get "target" l = Some (PAtom (AStr s))) by reflexivity;
          assert (Hy : get_str "sto_type" l = ty) by (destruct ty; reflexivity); assert (Hpre : get_bool "preload" false l = false) by (destruct ty; reflexivity) end.
        rewrite Hg1, Hy, Hpre, Hcd2. unfold mbind, ret. reflexivity.
      * intros k2 w4. apply accessed_same.
Qed.

(** The hypotheses hold: a stored record with file [x.bin] in the directory of key [k] (its content [b]); the JSON
    form is read without a context and saved in a context there; the file keeps its content, and the form
    that is written reads back to it. *)
Example C83_example :
  let E := ex_env "auto" false None in
  let p := record_form ($"x.bin") (Some ($"_sto__blob")) in
  let l := location ($"/proj") ($"/proj/.dman/gen/k") ++ [$"x.bin"] in
  context_at E ex_two (mkCtx 0 []) ($"/proj/.dman/gen/k") [] /\ unclaimed ex_two (mkCtx 0 []) [$"x.bin"] /\
  (forall q, inside (location ($"/proj") ($"/proj/.dman/gen/k") ++ [] ++ removelast [$"x.bin"]) q -> file_at (w_fs ex_two) q = None) /\
  file_at (w_fs ex_two) l = Some (Text ($"b")) /\
  exists o, deserialize E 3 None p ex_two = (Ok o, ex_two) /\
  exists o' p' w', serialize E 3 (Some (mkCtx 0 [])) o ex_two = (Ok (o', p'), w') /\ p' <> p /\
    file_at (w_fs w') l = Some (Text ($"b")) /\
    exists r, deserialize E 3 (Some (mkCtx 0 [])) p' w' = (Ok r, w') /\ fst (accessed E 3 r w') = Ok (blob "b").
Proof.
  cbn zeta. destruct (two_contexts (ex_env "auto" false None) eq_refl) as [C1 C2]. split; [exact C1|].
  split; [intros m v r Hm Hv; vm_compute in Hm; injection Hm as <-; destruct Hv|].
  split; [apply no_file_above; vm_compute; reflexivity|]. split; [reflexivity|].
  eexists. split; [apply de_detached; reflexivity|].
  let v := eval vm_compute in (serialize (ex_env "auto" false None) 3 (Some (mkCtx 0 [])) (detached ($"x.bin") (Some ($"_sto__blob"))) ex_two) in
  match v with (Ok (?o, ?p), ?w') => exists o, p, w';
    split; [vm_compute; reflexivity|]; split; [discriminate|]; split; [reflexivity|];
    let u := eval vm_compute in (deserialize (ex_env "auto" false None) 3 (Some (mkCtx 0 [])) p w') in
    match u with (Ok ?r, _) => exists r; split; vm_compute; reflexivity end end.
Qed.

Print Assumptions C83_deserialize_without_context.
Print Assumptions C83_detached_record_keeps_its_data.
