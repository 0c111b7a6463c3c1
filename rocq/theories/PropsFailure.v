(** What becomes of the failures that a record carries when it is saved and read back: C85. *)
From Coq Require Import List Ascii String Bool Arith ZArith Lia.
From Verif Require Import Base PosixModel FsModel PathModel SerialModel StoreModel StoreFrame StoreMount StoreSpec StoreLocal StorePlace
     StoreRecord StoreExample PathSpec MountSpec DirSpec PosixProof FsProof DirProof TargetProof MountProof HistoryProof PathFacts PropsRecord PropsDetached.
Import ListNotations.

(** The names under which the failures are written (errors.py:163-520, record.py:40-120). *)
Definition failure_class (k : mkind) : str :=
  match k with
  | MUnser => $"__unserializable" | MExcUnser => $"__exc_unserializable"
  | MUndeser => $"__undeserializable" | MExcUndeser => $"__exc_undeserializable"
  | MNoFile => $"__no_file" | MUnWritable => $"__un_writable" | MExcUnWritable => $"__exc_un_writable"
  | MUnReadable => $"__un_readable" | MExcUnReadable => $"__exc_un_readable"
  end.
Definition text_or_null (s : option str) : pser := match s with Some s => PAtom (AStr s) | None => PAtom ANone end.
(** A failure as JSON: its class and the type of the content that it is about. *)
Definition written_failure (m : mark) : pser :=
  PDict [(AStr ($"_ser__type"), PAtom (AStr (failure_class (mk_kind m))));
         (AStr ($"_ser__content"), PDict [(AStr ($"type"), text_or_null (mk_type m))])].
(** The JSON of a record at the path [s] with storable type [ty], with the failures of writing and reading. *)
Definition entry (k : string) (f : option pser) : list (atom * pser) :=
  match f with Some f => [(AStr ($k), f)] | None => [] end.
Definition record_with (s : str) (ty : option str) (pre : bool) (we re : option pser) : pser :=
  PDict [(AStr ($"_ser__type"), PAtom (AStr ($"_ser__record")));
         (AStr ($"_ser__content"),
          PDict ([(AStr ($"target"), PAtom (AStr s)); (AStr ($"sto_type"), text_or_null ty)] ++
                 (if pre then [(AStr ($"preload"), PAtom (ABool true))] else []) ++
                 match entry "write" we ++ entry "read" re with
                 | [] => []
                 | l => [(AStr ($"exceptions"), PDict l)]
                 end))].

Lemma de_record_with E n cx w dir s ty pre we re : ctx_dir cx w = (Ok dir, w) -> we <> Some (PAtom ANone) -> re <> Some (PAtom ANone) ->
  let wx := match we with Some f => Some (ERaw f) | None => None end in
  let rx := match re with Some f => Some (ERaw f) | None => None end in
  deserialize E (S n) (Some cx) (record_with s ty pre we re) w =
  if pre then
    match rec_load E (depth E n) (OUnloaded ty (from_path s) dir cx) rx w with
    | (Ok y, w') => (Ok (ORec (snd (fst y)) (from_path s) true wx rx), w')
    | (Exn e, w') => if is_ser_error e then (Exn e, w') else (_ <- invalid_found E;; ret (OMark (mkMark MExcUndeser None))) w'
    end
  else (Ok (ORec (OUnloaded ty (from_path s) dir cx) (from_path s) false wx rx), w).
Proof.
  intros Hd Hwe Hre wx rx. unfold deserialize. cbn [depth f_de]. unfold record_with, de_body.
  match goal with |- context [assoc_a (AStr SER_TYPE) ?l] => assert (Ha : assoc_a (AStr SER_TYPE) l = Some (PAtom (AStr ($"_ser__record")))) by reflexivity end.
  rewrite Ha. assert (Hr : ser_ty E ($"_ser__record") = Some DRec) by reflexivity. rewrite Hr.
  match goal with |- context [assoc_a (AStr SER_CONTENT) ((_, _) :: (_, ?b) :: nil)] => match goal with |- context [assoc_a (AStr SER_CONTENT) ?l] => assert (Hb : assoc_a (AStr SER_CONTENT) l = Some b) by reflexivity end end.
  rewrite Hb. unfold de_object, de_rec.
  match goal with |- context [get "target" ?l] => assert (Hg : get "target" l = Some (PAtom (AStr s))) by reflexivity;
    assert (Hy : get_str "sto_type" l = ty) by (destruct ty; reflexivity); assert (Hpre : get_bool "preload" false l = pre) by (destruct pre, we, re, ty; reflexivity);
    assert (Hex : match get "exceptions" l with Some (PDict e) => (raw_exc "write" e, raw_exc "read" e) | _ => (None, None) end = (wx, rx)) end.
  { unfold wx, rx. destruct we as [we|], re as [re|], pre, ty; try reflexivity; cbn -[get];
      repeat match goal with |- context [get ?k ?l] => let v := eval cbn in (get k l) in change (get k l) with v end;
      destruct we as [[]| |] || idtac; destruct re as [[]| |] || idtac; reflexivity || congruence. }
  rewrite Hg, Hy, Hpre. rewrite Hex. cbn zeta. cbn [fst snd]. unfold attempt, mbind. rewrite Hd. unfold ret. cbn [fst snd].
  destruct pre; [|reflexivity].
  destruct (rec_load _ _ _ _ _) as [[y|e] w1]; [reflexivity|]. destruct (is_ser_error e); reflexivity.
Qed.
Lemma written_failure_eq m : exc_pser (EMark m) = written_failure m.
Proof. destruct m as [k ty]; destruct k, ty; reflexivity. Qed.

(** ** C85 *)
Definition is_failure (o : obj) : bool := match o with OMark _ => true | _ => false end.
(** An access to an unloaded record that failed to read ([m]); saving the record where it is touches nothing and
    writes the failure.  Whoever reads that form back (later, elsewhere) has a record that is reported as invalid
    before anything is read, but as existing, even if the failure was that the file is missing; saving it again
    writes the same form; an access settles whether it is valid. *)
Theorem C85_failure_is_saved_and_read_back : forall E E2 n k cx cx2 base dir2 s ty cx0 t0 m w w2,
  ctx_dir cx w = (Ok base, w) -> ctx_dir cx2 w2 = (Ok dir2, w2) -> join2 (fst (path_split s)) (snd (path_split s)) = s ->
  let p := record_with s ty false None (Some (written_failure m)) in
  (exists o, serialize E (S n) (Some cx) (ORec (OUnloaded ty (from_path s) base cx0) t0 false None (Some (EMark m))) w = (Ok (o, p), w)) /\
  exists o, deserialize E2 (S k) (Some cx2) p w2 = (Ok o, w2) /\ rec_isvalid o = false /\ rec_exists o = true /\
    serialize E2 (S k) (Some cx2) o w2 = (Ok (o, p), w2) /\
    forall j w3 v o' w4, content_of E2 j o w3 = (Ok (v, o'), w4) -> rec_isvalid o' = negb (is_failure v).
Proof.
  intros E E2 n k cx cx2 base dir2 s ty cx0 t0 m w w2 Hb Hd Hs p.
  pose proof (proper_from_path s Hs) as Hfs.
  assert (Hsame : forall b, (if str_eq_dec b b then false else true) = false) by (intros b; destruct (str_eq_dec b b); congruence).
  split.
  - eexists. unfold serialize. change (f_ser (depth E (S n))) with (ser_body E (depth E n)). unfold ser_body. cbn [ser_method].
    unfold mbind at 1. unfold attempt. unfold ser_rec. unfold mbind at 1. unfold rec_store. unfold mbind at 1. rewrite Hb, Hsame.
    cbn [negb andb orb]. unfold ret. cbn beta iota zeta. rewrite Hfs. cbn [rec_sto_type exc_entry app]. rewrite written_failure_eq. reflexivity.
  - eexists. split.
    { unfold p. rewrite (de_record_with E2 k cx2 w2 dir2); [reflexivity|exact Hd|discriminate|discriminate]. }
    split; [reflexivity|]. split; [reflexivity|]. split.
    + unfold serialize. change (f_ser (depth E2 (S k))) with (ser_body E2 (depth E2 k)). unfold ser_body. cbn [ser_method].
      unfold mbind at 1. unfold attempt. unfold ser_rec. unfold mbind at 1. unfold rec_store. unfold mbind at 1. rewrite Hd, Hsame.
      cbn [negb andb orb]. unfold ret. cbn beta iota zeta. rewrite Hfs. reflexivity.
    + intros j w3 v o' w4 H. unfold content_of in H. apply mbind_ok in H as ([[v1 c1] re1] & w5 & Hl & H). unfold ret in H. injection H as <- <- <-.
      cbn [rec_load] in Hl. apply mbind_ok in Hl as (x & w6 & Hx & Hl). destruct x; unfold ret in Hl; injection Hl as <- <- <- <-; reflexivity.
Qed.

(** With preload the failure sticks: the file can be read again, reading the form loads it, and the record has its
    content.  Still it is reported as invalid; an access changes nothing about that, and neither does saving it. *)
Theorem C85_preload_keeps_a_stale_failure : forall E n cx dir comps ty c d x s cs f w,
  absolute (s_cwd E) -> absolute dir -> no_dotdot dir -> well_formed (w_fs w) -> s_limit E = None ->
  context_at E w cx dir comps -> places (from_path s) cs -> sto_ty E ty = Some (STLeaf c) ->
  file_at (w_fs w) (location (s_cwd E) dir ++ comps ++ cs) = Some x -> (forall k, s_read E c k x = Ok d) -> f <> PAtom ANone ->
  exists o w', deserialize E (S n) (Some cx) (record_with s (Some ty) true None (Some f)) w = (Ok o, w') /\
    (forall q, file_at (w_fs w') q = file_at (w_fs w) q) /\
    rec_isvalid o = false /\ (forall E2 k w1, content_of E2 k o w1 = (Ok (OLeaf c d, o), w1)) /\
    forall E2 k cx2 w2 o2 p w3, serialize E2 k (Some cx2) o w2 = (Ok (o2, p), w3) ->
      rec_isvalid o2 = false /\ forall E3 j w4, content_of E3 j o2 w4 = (Ok (OLeaf c d, o2), w4).
Proof.
  intros E n cx dir comps ty c d x s cs f w Hc Hd Hnd Hw Hl Hcx Hp Hty Hf Hr Hne.
  destruct (context_at_ok E w cx dir comps Hc Hd Hw Hcx) as [Hok Hs].
  pose proof (location_no_dotdot (s_cwd E) dir Hd (no_dotdot_comps dir Hnd)) as HD.
  destruct (ctx_read_leaf E (c_mnt cx) dir (depth E n) cx comps (from_path s) cs w ty c x d Hc Hd Hl HD Hok Hs Hp Hf Hty Hr) as (w' & R1 & _ & R3).
  assert (Hcd : exists d2, ctx_dir cx w = (Ok d2, w)).
  { destruct Hok as [(m3 & M1 & M2 & _) _]. unfold ctx_dir, mbind, m_dir_of. rewrite M1. eexists. reflexivity. }
  destruct Hcd as [d2 Hcd]. exists (ORec (OLeaf c d) (from_path s) true None (Some (ERaw f))), w'. split.
  { rewrite (de_record_with E n cx w d2 s (Some ty) true None (Some f) Hcd); [|discriminate|congruence].
    unfold rec_load. unfold mbind at 1. rewrite R1. unfold ret. reflexivity. }
  split; [exact R3|]. split; [reflexivity|]. split; [reflexivity|].
  intros E2 k cx2 w2 o2 p w3 H. apply serialize_rec in H as (k' & -> & [(q & _ & H)|(e & _ & _ & -> & _)]); [|split; reflexivity].
  apply ser_rec_loaded in H as (dir0 & w0 & t' & w1' & out & we' & c' & _ & _ & Ht & Hcw & -> & _); [|intros ? ? ? ? Hxx; discriminate].
  split; [reflexivity|].
  assert (Hc' : c' = OLeaf c d).
  { apply ctx_write_gen in Hcw as (s0 & local0 & nt & n0 & w4 & _ & _ & _ & _ & [(_ & l & w5 & _ & Hcw)|(_ & -> & _)]); [|reflexivity].
    unfold write_storable in Hcw. destruct (s_write E2 c _ d) as [left e]. apply mbind_ok in Hcw as (u & w6 & _ & Hcw). destruct e; [discriminate|].
    unfold ret in Hcw. congruence. }
  subst c'. reflexivity.
Qed.

(** A missing file that is asked for through one mount: the place counts as used in that mount from then on; the other
    mounts know nothing about it. *)
Lemma ctx_read_missing_used E i D0 F cx comps t cs w ty : absolute (s_cwd E) -> absolute D0 -> s_limit E = None -> s_validate E = false ->
  location (s_cwd E) D0 = comps_cp D0 -> mnt_ok i D0 w -> sctx i comps cx -> places t cs ->
  (forall q, is_prefix q (location (s_cwd E) D0 ++ comps ++ cs) = true -> file_at (w_fs w) q = None) ->
  is_dir (w_fs w) (location (s_cwd E) D0 ++ comps ++ cs) = false -> sto_ty E ty <> None ->
  exists w', ctx_read E F cx t (Some ty) w = (Ok (OMark (mkMark MNoFile (Some ty))), w') /\ mnt_ok i D0 w' /\ (forall q, file_at (w_fs w') q = file_at (w_fs w) q) /\
    (forall j, j <> i -> nth_error (w_mounts w') j = nth_error (w_mounts w) j) /\
    (exists m v, nth_error (w_mounts w') i = Some m /\ In v (m_touched m) /\ rel_target v (comps ++ cs)).
Proof.
  intros Hc Hd Hl Hv HD Hok Hs Hp Hf Hnd Hty. pose proof (places_clean t cs Hp) as [_ Hne].
  destruct (ctx_read_missing E i D0 F cx comps t cs w ty Hc Hd Hl Hv HD Hok Hs Hp Hf Hnd Hty) as (w' & R1 & R2 & R3).
  exists w'. split; [exact R1|]. split; [exact R2|]. split; [exact R3|].
  assert (Hcs : exists l0 z, cs = l0 ++ [z]) by (destruct (exists_last Hne) as (l0 & z & Hz); eauto). destruct Hcs as (l0 & z & ->).
  destruct (read_place_dirs E i D0 Hc Hd comps cx t (l0 ++ [z]) w Hl HD Hok Hs Hp) as (local & nt & w1 & H1 & H2 & H3 & H4 & H6 & H5).
  { rewrite removelast_last. intros q Hq. apply Hf. apply is_prefix_iff in Hq as [r Hr]. apply is_prefix_iff. exists (r ++ [z]). rewrite !app_assoc in *. rewrite Hr. reflexivity. }
  destruct (ctx_prepare_gave E i D0 Hc Hd comps cx t (l0 ++ [z]) (Some ($"_ignore")) w local nt w1 Hok Hs Hp) as (p & u & n' & Hn' & Hg & _ & _ & Hnn & _ & Hpath);
    [right; right; right; left; reflexivity|exact H1|].
  assert (Hm : w_mounts w' = w_mounts w1).
  { unfold ctx_read, attempt in R1. unfold mbind at 1 in R1. unfold mbind at 1 in R1. rewrite H1 in R1. unfold mbind at 1 in R1. rewrite (H5 w1 H3) in R1.
    assert (Hmr : forall l, w_mounts (snd (m_read E l w1)) = w_mounts w1).
    { intros l. unfold m_read. rewrite op_free by assumption. destruct (lookup _ _) as [[|]|]; reflexivity. }
    assert (Hrd : m_read E (location (s_cwd E) D0 ++ comps ++ l0 ++ [z]) w1 = (Exn FileNotFoundError, logged (EvRead (location (s_cwd E) D0 ++ comps ++ l0 ++ [z])) w1)).
    { set (l := location (s_cwd E) D0 ++ comps ++ l0 ++ [z]) in *.
      assert (Hlk : lookup (w_fs w1) l = None).
      { assert (Hfl : file_at (w_fs w1) l = None) by (rewrite H4; apply Hf; apply is_prefix_iff; exists []; rewrite app_nil_r; reflexivity).
        assert (Hdl : is_dir (w_fs w1) l = false).
        { rewrite H6, Hnd, removelast_last. cbn [orb]. destruct (is_prefix l _) eqn:Ex; [|reflexivity]. exfalso. apply is_prefix_iff in Ex as [r Hr].
          apply (f_equal (@List.length _)) in Hr. unfold l in Hr. rewrite !app_length in Hr. cbn in Hr. lia. }
        unfold file_at in Hfl. unfold is_dir in Hdl. destruct (lookup (w_fs w1) l) as [[|]|]; congruence. }
      unfold m_read. rewrite op_free by assumption. cbn [logged w_fs]. rewrite Hlk. reflexivity. }
    unfold read_storable in R1. destruct (sto_ty E ty) as [[c|dt]|]; [| |congruence]; unfold mbind at 1 in R1; rewrite Hrd in R1;
      unfold mbind, invalid_found in R1; rewrite Hv in R1; unfold ret in R1; injection R1 as <-; reflexivity. }
  rewrite Hm. destruct Hg as (m & touched & fs' & G1 & G2 & G3 & G4 & (_ & G5) & G6 & _ & _ & _ & G9 & _).
  rewrite G6. cbn [w_mounts].
  assert (Hx : comps ++ removelast (l0 ++ [z]) ++ [n'] = comps ++ l0 ++ [z]) by (apply G5; discriminate). rewrite Hx in *.
  split.
  - intros j Hj. rewrite nth_set_nth. destruct (Nat.eq_dec j i); [congruence|reflexivity].
  - assert (Hn : nth_error (set_nth i (set_touched m touched) (w_mounts w)) i = Some (set_touched m touched)).
    { rewrite nth_set_nth. destruct (Nat.eq_dec i i); [|congruence]. rewrite G1. reflexivity. }
    destruct G9 as [[-> _]|(-> & _ & G9 & _)].
    + exists (set_touched m (m_touched m ++ [u])), u. split; [exact Hn|]. split; [cbn; apply in_or_app; right; left; reflexivity|exact G3].
    + destruct Hok as [(m2 & M1 & _ & M3) _]. rewrite G1 in M1. injection M1 as <-.
      apply (in_touched_rel u (comps ++ l0 ++ [z]) _ G3) in G9; [|apply M3]. destruct G9 as (v & V1 & V2).
      exists (set_touched m (m_touched m)), v. split; [exact Hn|]. split; assumption.
Qed.

(** A record that was read back through the context [cx0] with a failure of an earlier write, and whose file is not
    there.  Saving it in [cx], a context of the same directory, changes no file; without validation it returns the form
    of a record that fails to be written and read: the failure is renewed at every save.  The form keeps the path when
    the save has a mount of its own in which nothing else was given that path (as [save] has), or never renames; if
    it shares the mount with the read, the path is used already by the attempt to read, and with renaming
    configured the form names another one. *)
Theorem C85_failed_write_without_file : forall E n k cx0 cx dir comps s ty cs f re w o,
  absolute (s_cwd E) -> absolute dir -> no_dotdot dir -> well_formed (w_fs w) -> s_limit E = None -> s_validate E = false ->
  In (s_retouch E) unattended -> s_retouch E <> $"quit" ->
  context_at E w cx0 dir comps -> context_at E w cx dir comps -> c_sub cx = c_sub cx0 ->
  places (from_path s) cs -> join2 (fst (path_split s)) (snd (path_split s)) = s -> unclaimed w cx (comps ++ cs) ->
  sto_ty E ty <> None -> f <> PAtom ANone -> re <> Some (PAtom ANone) ->
  let l := location (s_cwd E) dir ++ comps ++ cs in
  (forall q, inside l q -> file_at (w_fs w) q = None) -> is_dir (w_fs w) l = false ->
  deserialize E (S k) (Some cx0) (record_with s (Some ty) false (Some f) re) w = (Ok o, w) ->
  exists s' o' w', serialize E (S n) (Some cx) o w =
      (Ok (o', record_with s' (Some ty) false (Some (written_failure (mkMark MExcUnWritable None))) (Some (written_failure (mkMark MNoFile (Some ty))))), w') /\
    (forall q, file_at (w_fs w') q = file_at (w_fs w) q) /\ rec_isvalid o' = false /\
    (c_mnt cx <> c_mnt cx0 \/ s_retouch E <> $"auto" -> s' = s) /\
    (c_mnt cx = c_mnt cx0 -> s_retouch E = $"auto" -> s' <> s).
Proof.
  intros E n k cx0 cx dir comps s ty cs f re w o Hc Hd Hnd Hw Hl Hv Hu Hnq Hcx0 Hcx Hsub Hp Hj Hun Hty Hfn Hrn l Hfree Hdir Hde.
  destruct (context_at_ok E w cx dir comps Hc Hd Hw Hcx) as [Hok Hs].
  destruct (context_at_ok E w cx0 dir comps Hc Hd Hw Hcx0) as [Hok0 Hs0].
  pose proof (location_no_dotdot (s_cwd E) dir Hd (no_dotdot_comps dir Hnd)) as HD.
  pose proof (places_clean (from_path s) cs Hp) as [_ Hne].
  assert (Hcd0 : ctx_dir cx0 w = (Ok (join2 dir (c_sub cx0)), w)).
  { destruct Hok0 as [(m3 & M1 & M2 & _) _]. unfold ctx_dir, mbind, m_dir_of. rewrite M1, M2. reflexivity. }
  assert (Hcd : ctx_dir cx w = (Ok (join2 dir (c_sub cx0)), w)).
  { destruct Hok as [(m3 & M1 & M2 & _) _]. unfold ctx_dir, mbind, m_dir_of. rewrite M1, M2, Hsub. reflexivity. }
  rewrite (de_record_with E k cx0 w _ s (Some ty) false (Some f) re Hcd0) in Hde; [|congruence|exact Hrn]. injection Hde as <-.
  set (un := OUnloaded (Some ty) (from_path s) (join2 dir (c_sub cx0)) cx0).
  destruct (ctx_read_missing_used E (c_mnt cx0) dir (depth E n) cx0 comps (from_path s) cs w ty Hc Hd Hl Hv HD Hok0 Hs0 Hp) as (w1 & R1 & R2 & R3 & R4 & R5); [|exact Hdir|exact Hty|].
  { intros q Hq. apply Hfree. apply is_prefix_iff in Hq as [r Hr]. exists r. exact Hr. }
  assert (Hok1 : mnt_ok (c_mnt cx) dir w1).
  { destruct (Nat.eq_dec (c_mnt cx) (c_mnt cx0)) as [He|He]; [rewrite He; exact R2|].
    destruct Hok as [(m3 & M1 & M2 & M3) _]. split; [|apply R2]. exists m3. rewrite R4 by exact He. auto. }
  destruct (ctx_write_fwd E (c_mnt cx) dir (depth E n) cx comps (from_path s) cs un w1 Hc Hd Hl Hu Hnq HD Hok1 Hs Hp)
    as (p & u & n' & w2 & local & out & Hn' & Hg & Hok2 & Hpl & (z & Hz1 & Hz2 & Hz3) & Hsl & Hcw).
  { intros q Hq. rewrite R3. apply Hfree. apply is_prefix_iff in Hq as [r Hr].
    exists (r ++ [last cs []]). unfold l. rewrite (app_removelast_last [] Hne) at 1. rewrite !app_assoc in *. rewrite Hr. reflexivity. }
  assert (Hws : write_storable E (depth E n) local (location (s_cwd E) dir ++ comps ++ removelast cs ++ [n']) un w2 = (Exn RuntimeError, w2)) by reflexivity.
  rewrite Hws in Hcw. cbn [is_ser_error] in Hcw. clear Hws.
  change (sto_name E un) with (@None str) in Hcw.
  pose proof Hg as (m0 & touched & fs' & G1 & G2 & G3 & G4 & (_ & G5) & G6 & G7 & G8 & G9 & G10 & G11).
  assert (Hfile : forall q, file_at (w_fs w2) q = file_at (w_fs w) q) by (intros q; rewrite G6; cbn [w_fs]; rewrite G7; apply R3).
  exists z. eexists _, w2. split; [|split; [exact Hfile|split; [|split]]].
  - unfold serialize. change (f_ser (depth E (S n))) with (ser_body E (depth E n)). unfold ser_body. cbn [ser_method].
    unfold mbind at 1. unfold attempt. unfold ser_rec. unfold mbind at 1. unfold rec_store. unfold mbind at 1. rewrite Hcd.
    change (OUnloaded (Some ty) (from_path s) (join2 dir (c_sub cx0)) cx0) with un. unfold un at 1 2 3. cbn [negb andb orb].
    match goal with |- context [(?b && false && true)] => replace (b && false && true) with false by (destruct b; reflexivity) end.
    match goal with |- context [(?b || true)] => replace (b || true) with true by (destruct b; reflexivity) end.
    unfold mbind at 1. unfold rec_load at 1. unfold un at 1. unfold mbind at 1. rewrite R1. unfold ret at 1. fold un.
    unfold mbind at 1.
    assert (Ht : rec_target E un (from_path s) w1 = (Ok (from_path s), w1)).
    { unfold rec_target, from_path. destruct (path_split s), (splitext _). reflexivity. }
    rewrite Ht. unfold mbind at 1. rewrite Hcw. unfold invalid_found, mbind, ret. rewrite Hv. cbn beta iota zeta. rewrite Hz1.
    cbn [rec_sto_type exc_entry app]. rewrite !written_failure_eq. reflexivity.
  - reflexivity.
  - intros Hor. assert (Hrest : removelast cs ++ [n'] = cs).
    { apply (app_inv_head comps). destruct Hor as [He|He]; [|apply G5; exact He]. apply G11. intros v r Hv1 Hr. rewrite R4 in G1 by exact He. exact (Hun m0 v r G1 Hv1 Hr). }
    assert (Hcw' : exists x o2, ctx_write E (depth E n) cx (from_path s) un w1 = (Ok (out, x, o2), w2)).
    { eexists _, _. rewrite Hcw. unfold invalid_found, mbind, ret. rewrite Hv. reflexivity. }
    destruct Hcw' as (x & o2 & Hcw'). apply ctx_write_gen in Hcw' as (s0 & local0 & nt & n0 & w4 & F1 & _ & _ & F4 & _).
    rewrite (proper_from_path s Hj) in F1. injection F1 as <-.
    destruct Hpl as (sd & nm & P1 & P2 & _ & _ & _ & P6). destruct Hp as (sd0 & nm0 & Q1 & Q2 & _ & _ & _ & Q6).
    assert (Hsd : sd = sd0).
    { assert (Hx : t_subdir out = t_subdir (from_path s)).
      { unfold update, Target in F4. destruct (splitext n0) as [a b]. cbn in F4. injection F4 as <-. unfold from_path. destruct (path_split s), (splitext l0). reflexivity. }
      congruence. }
    assert (Hnm : nm = nm0). { rewrite Hrest, Q6, Hsd in P6. apply app_inj_tail in P6 as [_ P6]. congruence. }
    pose proof (proper_from_path s Hj) as Hfs. rewrite (fspath_name _ _ _ Q1 Q2) in Hfs. rewrite (fspath_name _ _ _ P1 P2) in Hz1. congruence.
  - intros He Ha Hzs. subst z. rewrite Hz3 in Hp.
    assert (Hrest : cs = removelast cs ++ [n']).
    { destruct Hpl as (sd & nm & P1 & P2 & _ & _ & _ & P6). destruct Hp as (sd0 & nm0 & Q1 & Q2 & _ & _ & _ & Q6). congruence. }
    rewrite <- Hrest in *. destruct R5 as (m1 & v & V1 & V2 & V3). rewrite <- He in V1. rewrite G1 in V1. injection V1 as <-.
    assert (Hin : in_touched u (m_touched m0) = true).
    { apply (in_touched_rel u (comps ++ cs)); [exact G3| |eauto]. destruct Hok1 as [(m2 & M1 & _ & M3) _]. rewrite G1 in M1. injection M1 as <-. apply M3. }
    destruct G10 as [[_ G10]|(_ & _ & _ & G10)]; [congruence|]. cbn [eff_choice] in G10. rewrite Ha in G10. destruct G10 as [G10|[G10|[]]]; discriminate.
Qed.

(** The hypotheses hold in a project with two mounts of the directory of key [k], which holds [x.bin] and not [y.bin]:
    the form of a record at [y.bin] that failed to be written is read through the first mount; saved through the second,
    the form names [y.bin] again, saved through the first it names [y0.bin].  A preloaded record at [x.bin] that could not
    be read once has its content and is still invalid. *)
Definition ex_same : world :=
  mkWorld (Dir [($"proj", Dir [($".dman", Dir [($"gen", Dir [($"k", Dir [($"x.bin", File (Text ($"b")))])])])])])
    [new_mount ($"/proj/.dman/gen/k") true true; new_mount ($"/proj/.dman/gen/k") true true] [] 0 [].
Example C85_example :
  let E := ex_env "auto" false None in
  let failed := written_failure (mkMark MExcUnWritable (Some ($"_sto__blob"))) in
  let lost := written_failure (mkMark MNoFile (Some ($"_sto__blob"))) in
  let p := record_with ($"y.bin") (Some ($"_sto__blob")) false (Some failed) None in
  let l := location ($"/proj") ($"/proj/.dman/gen/k") ++ [$"y.bin"] in
  context_at E ex_same (mkCtx 0 []) ($"/proj/.dman/gen/k") [] /\ context_at E ex_same (mkCtx 1 []) ($"/proj/.dman/gen/k") [] /\
  unclaimed ex_same (mkCtx 0 []) [$"y.bin"] /\ unclaimed ex_same (mkCtx 1 []) [$"y.bin"] /\
  (forall q, inside l q -> file_at (w_fs ex_same) q = None) /\ is_dir (w_fs ex_same) l = false /\
  places (from_path ($"y.bin")) [$"y.bin"] /\ sto_ty E ($"_sto__blob") <> None /\
  (exists o, deserialize E 3 (Some (mkCtx 0 [])) p ex_same = (Ok o, ex_same) /\
    (exists o' w', serialize E 3 (Some (mkCtx 1 [])) o ex_same =
       (Ok (o', record_with ($"y.bin") (Some ($"_sto__blob")) false (Some (written_failure (mkMark MExcUnWritable None))) (Some lost)), w')) /\
    exists o' w', serialize E 3 (Some (mkCtx 0 [])) o ex_same =
       (Ok (o', record_with ($"y0.bin") (Some ($"_sto__blob")) false (Some (written_failure (mkMark MExcUnWritable None))) (Some lost)), w')) /\
  exists o w', deserialize E 3 (Some (mkCtx 0 [])) (record_with ($"x.bin") (Some ($"_sto__blob")) true None (Some lost)) ex_same = (Ok o, w') /\
    rec_isvalid o = false /\ content_of E 3 o w' = (Ok (blob "b", o), w').
Proof.
  cbn zeta.
  assert (Hcx : forall i, i < 2 -> context_at (ex_env "auto" false None) ex_same (mkCtx i []) ($"/proj/.dman/gen/k") []).
  { intros [|[|i]] Hi; [| |lia]; eexists; (split; [reflexivity|]); (split; [|split; [reflexivity|constructor]]);
      exists (Dir []), true, true, [], (Dir []); split; constructor. }
  split; [apply Hcx; lia|]. split; [apply Hcx; lia|].
  split; [intros m v r Hm Hv; vm_compute in Hm; injection Hm as <-; destruct Hv|].
  split; [intros m v r Hm Hv; vm_compute in Hm; injection Hm as <-; destruct Hv|].
  split; [apply no_file_above; vm_compute; reflexivity|]. split; [reflexivity|].
  split.
  { exists [], ($"y.bin"). repeat split; try discriminate; try (intros [r H]; discriminate).
    - intros [H|[H|[H|[H|[H|[]]]]]]; discriminate.
    - intros [H|[]]. discriminate. }
  split; [vm_compute; discriminate|].
  split.
  - eexists. split; [vm_compute; reflexivity|]. split.
    + let v := eval vm_compute in (serialize (ex_env "auto" false None) 3 (Some (mkCtx 1 []))
         (ORec (OUnloaded (Some ($"_sto__blob")) (from_path ($"y.bin")) ($"/proj/.dman/gen/k/") (mkCtx 0 [])) (from_path ($"y.bin")) false
            (Some (ERaw (written_failure (mkMark MExcUnWritable (Some ($"_sto__blob")))))) None) ex_same) in
      match v with (Ok (?o, _), ?w') => exists o, w'; vm_compute; reflexivity end.
    + let v := eval vm_compute in (serialize (ex_env "auto" false None) 3 (Some (mkCtx 0 []))
         (ORec (OUnloaded (Some ($"_sto__blob")) (from_path ($"y.bin")) ($"/proj/.dman/gen/k/") (mkCtx 0 [])) (from_path ($"y.bin")) false
            (Some (ERaw (written_failure (mkMark MExcUnWritable (Some ($"_sto__blob")))))) None) ex_same) in
      match v with (Ok (?o, _), ?w') => exists o, w'; vm_compute; reflexivity end.
  - let v := eval vm_compute in (deserialize (ex_env "auto" false None) 3 (Some (mkCtx 0 [])) (record_with ($"x.bin") (Some ($"_sto__blob")) true None (Some (written_failure (mkMark MNoFile (Some ($"_sto__blob")))))) ex_same) in
    match v with (Ok ?o, ?w') => exists o, w'; split; [vm_compute; reflexivity|]; split; vm_compute; reflexivity end.
Qed.

Print Assumptions C85_failure_is_saved_and_read_back.
Print Assumptions C85_preload_keeps_a_stale_failure.
Print Assumptions C85_failed_write_without_file.
