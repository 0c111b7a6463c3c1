(** Records: targets, laziness. *)
From Coq Require Import List Ascii String Bool Arith ZArith Lia.
From Verif Require Import Base PosixModel FsModel PathModel SerialModel StoreModel StoreFrame StoreMount StoreSpec StoreLocal StorePlace
     PathSpec MountSpec DirSpec PosixProof FsProof DirProof TargetProof MountProof HistoryProof PathFacts.
Import ListNotations.

Lemma context_at_ok E w cx dir comps : absolute (s_cwd E) -> absolute dir -> well_formed (w_fs w) -> context_at E w cx dir comps ->
  mnt_ok (c_mnt cx) dir w /\ sctx (c_mnt cx) comps cx.
Proof.
  intros Hc Hd Hw (m & Hm & Hr & Hs & Hp). destruct (reachable_ok _ _ _ _ Hc Hd Hr) as [Hmd Ht]. split.
  - split; [|assumption]. exists m. auto.
  - repeat split; [assumption|]. eapply Forall_impl; [|exact Hp]. intros a Ha. apply plain_clean. assumption.
Qed.

(** ** Computations that leave the world alone *)
Definition still {A} (m : M A) : Prop := forall w, snd (m w) = w.
Lemma still_ret {A} (a : A) : still (ret a). Proof. intros w. reflexivity. Qed.
Lemma still_raise {A} e : still (@raise A e). Proof. intros w. reflexivity. Qed.
Lemma still_lift {A} (r : res A) : still (lift r). Proof. intros w. reflexivity. Qed.
Lemma still_bind {A B} (m : M A) (f : A -> M B) : still m -> (forall a, still (f a)) -> still (mbind m f).
Proof.
  intros Hm Hf w. unfold mbind. specialize (Hm w). destruct (m w) as [[a|e] w1]; cbn [snd] in *; subst w1; [apply Hf|reflexivity].
Qed.
Lemma still_attempt {A} (m : M A) : still m -> still (attempt m).
Proof. intros Hm w. unfold attempt. specialize (Hm w). destruct (m w). exact Hm. Qed.
Lemma still_mapM {A B} (f : A -> M B) l : (forall x, In x l -> still (f x)) -> still (mapM f l).
Proof.
  induction l as [|x l IH]; intros H; [apply still_ret|]. cbn [mapM]. apply still_bind; [apply H; left; reflexivity|intros y].
  apply still_bind; [apply IH; intros z Hz; apply H; right; assumption|intros ys; apply still_ret].
Qed.
Lemma still_dir i : still (m_dir_of i).
Proof. intros w. unfold m_dir_of. destruct (nth_error _ _); reflexivity. Qed.
Lemma still_ctx_dir cx : still (ctx_dir cx).
Proof. apply still_bind; [apply still_dir|intros d; apply still_ret]. Qed.
Lemma still_invalid E : still (invalid_found E).
Proof. unfold invalid_found. destruct (s_validate E); [apply still_raise|apply still_ret]. Qed.

Lemma no_preload_part p q : part_of p q -> no_preload q -> no_preload p.
Proof.
  intros Hp Hq d Hd. apply Hq. clear Hq. induction Hp as [p|p x l Hx Hp IH|p k v d0 Hx Hp IH]; [assumption| |].
  - eapply part_list; [eassumption|auto].
  - eapply part_dict; [eassumption|auto].
Qed.
Lemma no_preload_list x l : In x l -> no_preload (PList l) -> no_preload x.
Proof. intros Hx. apply no_preload_part. eapply part_list; [eassumption|constructor]. Qed.
Lemma no_preload_dict k v d : In (k, v) d -> no_preload (PDict d) -> no_preload v.
Proof. intros Hx. apply no_preload_part. eapply part_dict; [eassumption|constructor]. Qed.
Lemma assoc_a_in {A} k (l : list (atom * A)) v : assoc_a k l = Some v -> In (k, v) l.
Proof.
  induction l as [|[x y] r IH]; cbn; [discriminate|]. destruct (atom_eq_dec x k) as [->|].
  - intros H. injection H as ->. left. reflexivity.
  - intros H. right. apply IH. exact H.
Qed.
Lemma no_preload_get d : no_preload (PDict d) -> get_bool "preload" false d = false.
Proof.
  intros H. unfold get_bool, get. destruct (assoc_a (key "preload") d) as [[[]| |]|] eqn:Ea; try reflexivity.
  destruct b; [|reflexivity]. exfalso. apply (H d (part_refl _)). apply assoc_a_in. exact Ea.
Qed.

Section Quiet.
Variable E : senv.
Lemma de_quiet n : forall cx x p, no_preload p -> still (f_de (depth E n) cx x p).
Proof.
  induction n as [|n IH]; intros cx x p Hp; [intros w; reflexivity|].
  change (still (de_body E (depth E n) cx x p)). set (F := depth E n) in *.
  assert (Hobj : forall ty q, no_preload q -> still (de_object E F cx ty q)).
  { intros ty q Hq. unfold de_object. apply still_bind.
    - apply still_attempt. destruct q as [a|l|d]; try apply still_raise. destruct ty as [|runs sto|sto|c|k].
      + unfold de_rec. rewrite (no_preload_get d Hq). apply still_bind.
        * destruct cx; [|apply still_bind; [apply still_invalid|intros; apply still_ret]].
          destruct (get "target" d) as [[[]| |]|]; try (apply still_bind; [apply still_invalid|intros; apply still_ret]).
          apply still_bind; [apply still_ctx_dir|intros; apply still_ret].
        * intros [content re]. apply still_bind; [apply still_ret|intros; apply still_ret].
      + unfold de_seq. assert (Hl : forall l, get "store" d = Some (PList l) -> no_preload (PList l)).
        { intros l Hl. unfold get in Hl. destruct (assoc_a (key "store") d) as [v|] eqn:Ea; [|discriminate].
          apply assoc_a_in in Ea. assert (v = PList l) by (destruct v as [[]| |]; congruence). subst v. eapply no_preload_dict; eassumption. }
        destruct (get "store" d) as [[a|l|d']|] eqn:Eg; try apply still_raise.
        * apply still_bind; [apply still_mapM; intros y Hy; apply IH; eapply no_preload_list; [eassumption|auto]|].
          intros vs. destruct (fold_left _ _ _). apply still_ret.
        * cbn. intros w. reflexivity.
      + unfold de_map. destruct (get "store" d) as [[a|l|d']|] eqn:Eg; try apply still_raise; try apply still_ret.
        assert (Hl : no_preload (PDict d')).
        { unfold get in Eg. destruct (assoc_a (key "store") d) as [v|] eqn:Ea; [|discriminate].
          apply assoc_a_in in Ea. assert (v = PDict d') by (destruct v as [[]| |]; congruence). subst v. eapply no_preload_dict; eassumption. }
        apply still_bind; [|intros; apply still_ret]. apply still_mapM. intros [k v] Hy. apply still_bind; [apply still_lift|intros k'].
        apply still_bind; [apply IH; eapply no_preload_dict; eassumption|intros; apply still_ret].
      + unfold de_model. destruct (k_kind _) as [|fds]; [apply still_raise|]. apply still_bind; [|intros; apply still_ret].
        induction fds as [|f r IHf]; [apply still_ret|]. cbn [de_fields]. apply still_bind.
        * destruct (assoc_a (AStr (mf_name f)) d) as [v|] eqn:Ea; [|apply still_ret].
          apply assoc_a_in in Ea. assert (Hv : no_preload v) by (eapply no_preload_dict; eassumption).
          destruct v as [[]| |]; try apply still_ret; apply IH; assumption.
        * intros v. apply still_bind; [exact IHf|intros; apply still_ret].
      + apply still_ret.
    - intros [o|e]; [apply still_ret|]. destruct (is_ser_error e); [apply still_raise|apply still_ret]. }
  unfold de_body. assert (Hmark : forall o, still (match o with OMark _ => _ <- invalid_found E;; ret o | _ => ret o end)).
  { intros o. destruct o; try apply still_ret. apply still_bind; [apply still_invalid|intros; apply still_ret]. }
  assert (Hmain : still (o <- match x with
           | Some ty => de_object E F cx ty p
           | None =>
               match p with
               | PAtom a => ret (OAtom a)
               | PList l => vs <- mapM (f_de F cx None) l;; ret (OList vs)
               | PDict d =>
                   match assoc_a (AStr SER_TYPE) d with
                   | None => vs <- mapM (fun kv => v <- f_de F cx None (snd kv);; ret (fst kv, v)) d;; ret (ODict vs)
                   | Some (PAtom (AStr t)) =>
                       match ser_ty E t with
                       | None => ret (OMark (mkMark MUndeser None))
                       | Some ty => de_object E F cx ty match assoc_a (AStr SER_CONTENT) d with Some q => q | None => PDict [] end
                       end
                   | Some (PAtom _) => ret (OMark (mkMark MUndeser None))
                   | Some _ => raise TypeError
                   end
               end
           end;; match o with OMark _ => _ <- invalid_found E;; ret o | _ => ret o end)).
  { apply still_bind; [|exact Hmark]. destruct x as [ty|]; [apply Hobj; assumption|].
    destruct p as [a|l|d]; [apply still_ret| |].
    - apply still_bind; [|intros; apply still_ret]. apply still_mapM. intros y Hy. apply IH. eapply no_preload_list; eassumption.
    - destruct (assoc_a (AStr SER_TYPE) d) as [[[]| |]|] eqn:Ea; try apply still_ret; try apply still_raise.
      + destruct (ser_ty E _) as [ty|]; [|apply still_ret]. apply Hobj.
        destruct (assoc_a (AStr SER_CONTENT) d) as [q|] eqn:Ec.
        * apply assoc_a_in in Ec. eapply no_preload_dict; eassumption.
        * intros d' Hd'. inversion Hd'; subst; [intros []|contradiction].
      + apply still_bind; [|intros; apply still_ret]. apply still_mapM. intros [k v] Hy.
        apply still_bind; [apply IH; eapply no_preload_dict; eassumption|intros; apply still_ret]. }
  destruct p as [[]| |]; try exact Hmain. apply still_ret.
Qed.
End Quiet.

Lemma mbind_ok {A B} (m : M A) (f : A -> M B) w b w' : mbind m f w = (Ok b, w') ->
  exists a w1, m w = (Ok a, w1) /\ f a w1 = (Ok b, w').
Proof. unfold mbind. destruct (m w) as [[a|e] w1]; [eauto|discriminate]. Qed.
Lemma attempt_ok {A} (m : M A) w r w' : attempt m w = (Ok r, w') -> m w = (r, w').
Proof. unfold attempt. destruct (m w). congruence. Qed.
Lemma still_ok {A} (m : M A) w r w' : still m -> m w = (r, w') -> w' = w.
Proof. intros Hm H. specialize (Hm w). rewrite H in Hm. exact Hm. Qed.
Lemma invalid_ok E w u w' : invalid_found E w = (Ok u, w') -> w' = w /\ s_validate E = false.
Proof. unfold invalid_found. destruct (s_validate E); [discriminate|]. unfold ret. intros H. injection H as _ <-. auto. Qed.

(** A target whose path is taken apart and put together again without change. *)
Definition proper (s : str) : Prop := join2 (fst (path_split s)) (snd (path_split s)) = s.
Lemma proper_from_path s : proper s -> fspath (from_path s) = Ok s.
Proof.
  unfold proper, from_path. intros Hs. destruct (path_split s) as [h t] eqn:Ep. cbn [fst snd] in Hs. pose proof (splitext_app t) as Ht.
  destruct (splitext t) as [st su]. cbn [fst snd] in Ht. unfold fspath. cbn. rewrite Ht, Hs. reflexivity.
Qed.
Lemma from_path_subdir s : t_subdir (from_path s) = Some (fst (path_split s)).
Proof. unfold from_path. destruct (path_split s) as [h t]. destruct (splitext t). reflexivity. Qed.
Lemma renamed_proper s n out : noslash n -> update (from_path s) None None None (Some n) = Ok out ->
  exists z, fspath out = Ok z /\ proper z /\ from_path z = out.
Proof.
  intros Hn Hu. unfold update, Target in Hu. pose proof (splitext_app n) as Hs.
  pose proof (from_path_subdir s) as Hd. destruct (splitext n) as [st su] eqn:En. cbn [fst snd bind] in *.
  injection Hu as <-. unfold merge2, merge_part. destruct (from_path s) as [d0 s0 x0]. cbn in Hd. subst d0. cbn.
  exists (join2 (fst (path_split s)) n). split; [unfold fspath; cbn; rewrite Hs; reflexivity|].
  pose proof (path_split_again s n Hn) as Hp. split; [unfold proper; rewrite Hp; reflexivity|].
  unfold from_path. rewrite Hp, En. reflexivity.
Qed.

Section Write.
Variable E : senv.
Variable i : nat.
Variable D0 : str.
Hypothesis Hcwd : absolute (s_cwd E).
Hypothesis Hdir : absolute D0.
Hypothesis Hun : In (s_retouch E) unattended.
Let D := location (s_cwd E) D0.
Notation ok := (mnt_ok i D0).

(** [Context.write] that returned: it prepared the target, then wrote. *)
Lemma ctx_write_gen F cx t o w out x o' w' : ctx_write E F cx t o w = (Ok (out, x, o'), w') ->
  exists p local nt n w1, fspath t = Ok p /\ ctx_prepare E cx (from_path p) None w = (Ok (local, nt), w1) /\
    t_name nt = Ok n /\ update (from_path p) None None None (Some n) = Ok out /\
    ((x = None /\ exists l w2, ctx_path E local nt w1 = (Ok l, w2) /\ write_storable E F local l o w2 = (Ok o', w')) \/
     (x = Some (EMark (mkMark MExcUnWritable (sto_name E o))) /\ o' = o /\ s_validate E = false /\ exists e,
      is_ser_error e = false /\ e <> UserQuitException /\
      (exists l w2, ctx_path E local nt w1 = (Ok l, w2) /\ write_storable E F local l o w2 = (Exn e, w') \/
       ctx_path E local nt w1 = (Exn e, w')))).
Proof.
  intros H. unfold ctx_write in H. apply mbind_ok in H as (r & w1 & H1 & H). apply attempt_ok in H1.
  destruct r as [[t1 [local nt]]|e].
  2:{ destruct (is_ser_error e); [discriminate|]. destruct e; try discriminate; apply mbind_ok in H as (? & w2 & H2 & H); discriminate. }
  apply mbind_ok in H1 as (p & w2 & H1 & H2). unfold lift in H1. injection H1 as H1 <-.
  apply mbind_ok in H2 as ([l0 n0] & w2 & H2 & H3). unfold ret in H3. injection H3 as <- <- <- <-.
  apply mbind_ok in H as (r & w3 & H3 & H). apply attempt_ok in H3. exists p, l0, n0.
  destruct r as [[out0 o0]|e].
  - unfold ret in H. injection H as <- <- <- <-. apply mbind_ok in H3 as (l & w4 & H4 & H3).
    apply mbind_ok in H3 as (n & w5 & H5 & H3). unfold lift in H5. injection H5 as H5 <-.
    apply mbind_ok in H3 as (out1 & w6 & H6 & H3). unfold lift in H6. injection H6 as H6 <-.
    apply mbind_ok in H3 as (o1 & w7 & H7 & H3). unfold ret in H3. injection H3 as -> -> ->.
    exists n, w2. repeat (split; [assumption|]). left. split; [reflexivity|]. eauto.
  - destruct (is_ser_error e) eqn:Ee; [discriminate|].
    assert (Hx : e <> UserQuitException) by (intros ->; discriminate).
    assert (H' : (_ <- invalid_found E;; n <- lift (t_name n0);; out <- lift (update (from_path p) None None None (Some n));;
             ret (out, Some (EMark (mkMark MExcUnWritable (sto_name E o))), o)) w3 = (Ok (out, x, o'), w')) by (destruct e; try exact H; congruence).
    clear H. apply mbind_ok in H' as (u & w4 & H4 & H). apply invalid_ok in H4 as [-> Hv].
    apply mbind_ok in H as (n & w5 & H5 & H). unfold lift in H5. injection H5 as H5 <-.
    apply mbind_ok in H as (out1 & w6 & H6 & H). unfold lift in H6. injection H6 as H6 <-. unfold ret in H. injection H as Q1 Q2 Q3 Q4. subst out1 x o' w'.
    exists n, w2. repeat (split; [assumption|]). right. repeat (split; [reflexivity || assumption|]).
    exists e. repeat (split; [assumption|]). unfold mbind, lift in H3. destruct (ctx_path E l0 n0 w2) as [[l|e1] w4] eqn:Ec.
    + exists l, w4. left. split; [reflexivity|]. rewrite H5, H6 in H3. destruct (write_storable E F l0 l o w4) as [[o1|e2] w5] eqn:Ew; [discriminate|].
      injection H3 as -> ->. reflexivity.
    + injection H3 as -> ->. exists [], w. right. reflexivity.
Qed.
Lemma ctx_write_name F cx comps t o w out x o' w' : ok w -> sctx i comps cx ->
  ctx_write E F cx t o w = (Ok (out, x, o'), w') -> exists z, fspath out = Ok z /\ proper z /\ from_path z = out.
Proof.
  intros Hok Hs H. apply ctx_write_gen in H as (p & local & nt & n & w1 & H1 & H2 & H3 & H4 & _).
  eapply renamed_proper; [|exact H4].
  destruct (ctx_prepare_inv E i D0 Hcwd Hdir (fun _ => True) (fun _ _ => I) comps cx (from_path p) None w local nt w1 Hok Hs Hun H2) as (a' & p' & u & rest0 & _ & _ & _ & Hr & _ & _ & Hnn).
  rewrite H3 in Hnn. injection Hnn as ->. pose proof Hr as (Hcr & _). destruct (last_rel rest0 Hcr) as [[Hl|Hl] _]; [apply Hl|]. cbn zeta in Hl.
  rewrite Hl. intros [Hx|[]]. discriminate.
Qed.
Lemma ctx_write_inv F cx comps t cs o w out x o' w' : ok w -> sctx i comps cx -> places t cs ->
  ctx_write E F cx t o w = (Ok (out, x, o'), w') ->
  exists p u n' w1 local, plain n' /\ gave E i D0 p None w u (comps ++ cs) (comps ++ removelast cs ++ [n']) w1 /\ ok w1 /\
    places out (removelast cs ++ [n']) /\ (exists z, fspath out = Ok z /\ proper z /\ from_path z = out) /\
    sctx i (comps ++ removelast cs) local /\
    ((x = None /\ write_storable E F local (D ++ comps ++ removelast cs ++ [n']) o w1 = (Ok o', w')) \/
     (x = Some (EMark (mkMark MExcUnWritable (sto_name E o))) /\ o' = o /\ s_validate E = false /\ exists e,
      is_ser_error e = false /\ e <> UserQuitException /\
      write_storable E F local (D ++ comps ++ removelast cs ++ [n']) o w1 = (Exn e, w'))).
Proof.
  intros Hok Hs Hp H. pose proof H as Hz. apply (ctx_write_name _ _ _ _ _ _ _ _ _ _ Hok Hs) in Hz.
  apply ctx_write_gen in H as (p & local & nt & n & w1 & H1 & H2 & H3 & H4 & H5).
  pose proof (places_from_path t cs p Hp H1) as Hp'.
  destruct (ctx_prepare_gave E i D0 Hcwd Hdir comps cx (from_path p) cs None w local nt w1 Hok Hs Hp' Hun H2) as (q & u & n' & Hpn & Hg & Hsl & _ & Hn & Hok1 & Hpath).
  rewrite H3 in Hn. injection Hn as ->. exists q, u, n', w1, local. repeat (split; [assumption|]).
  split; [eapply places_rename; eassumption|]. split; [assumption|]. split; [assumption|].
  fold D in Hpath. pose proof (Hpath w1 Hok1) as Hpw. destruct H5 as [(-> & l & w2 & K1 & K2)|(-> & -> & Hv & e & He & Hq & l & w2 & K)].
  - left. split; [reflexivity|]. rewrite Hpw in K1. injection K1 as <- <-. exact K2.
  - right. repeat (split; [reflexivity || assumption|]). exists e. repeat (split; [assumption|]).
    destruct K as [[K1 K2]|K]; [|rewrite Hpw in K; discriminate]. rewrite Hpw in K1. injection K1 as <- <-. exact K2.
Qed.
End Write.

(** Serializing a record that is not waiting to be loaded. *)
Definition loaded (o : obj) : Prop := forall ty t base cx, o <> OUnloaded ty t base cx.
Lemma ser_rec_loaded E F cx content t pre we re w o p w' : loaded content ->
  ser_rec E F (Some cx) content t pre we re w = (Ok (o, p), w') ->
  exists dir w0 t' w1 out we' c', ctx_dir cx w = (Ok dir, w0) /\ w0 = w /\ rec_target E content t w = (Ok t', w1) /\
    ctx_write E F cx t' content w1 = (Ok (out, we', c'), w') /\ o = ORec c' out pre we' re /\
    p = PDict ([(key "target", match fspath out with Ok p => PAtom (AStr p) | Exn _ => PList [part_pser (t_subdir out); part_pser (t_stem out); part_pser (t_suffix out)] end);
                (key "sto_type", opt_str (rec_sto_type E content))]
              ++ (if pre then [(key "preload", PAtom (ABool true))] else []) ++
              match exc_entry "write" we' ++ exc_entry "read" re with [] => [] | l => [(key "exceptions", PDict l)] end).
Proof.
  intros Hl H. unfold ser_rec in H. apply mbind_ok in H as ([[[out c'] we'] re'] & w2 & Hst & H). unfold ret in H. injection H as <- <- <-.
  unfold rec_store in Hst. apply mbind_ok in Hst as (dir & w0 & Hd & Hst). pose proof (still_ok _ _ _ _ (still_ctx_dir cx) Hd) as ->.
  cbn zeta in Hst.
  assert (H' : (t' <- rec_target E content t;; y <- ctx_write E F cx t' content;; let '(out, we', content'') := y : target * option exc * obj in ret (out, content'', we', re)) w = (Ok (out, c', we', re'), w2)).
  { destruct content as [a|l|d|c d|c fs u|q ss u|pp ss u|c0 t0 p0 we0 re0|a b c d|ty0|mk]; try (exfalso; eapply Hl; reflexivity);
      destruct we; cbn [negb andb orb] in Hst; exact Hst. }
  clear Hst. apply mbind_ok in H' as (t' & w1 & H1 & H'). apply mbind_ok in H' as ([[out0 we0] c0] & w3 & H2 & H').
  unfold ret in H'. injection H' as -> -> -> <- <-.
  exists dir, w, t', w1, out, we', c'. repeat (split; [assumption || reflexivity|]). reflexivity.
Qed.
Lemma rec_target_still E content t w t' w' : rec_target E content t w = (Ok t', w') ->
  exists k, w' = mkWorld (w_fs w) (w_mounts w) (w_inputs w) k (w_log w) /\ w_uuid w <= k.
Proof.
  unfold rec_target. destruct (is_complete t).
  - unfold ret. intros H. injection H as _ <-. exists (w_uuid w). destruct w. auto.
  - unfold m_uuid, mbind, ret. intros H. injection H as _ <-. eexists. split; [reflexivity|]. cbn. lia.
Qed.
(** [BaseContext.serialize] of a record that returned without turning into a marker. *)
Lemma serialize_rec E n cx content t pre we re w o p w' :
  serialize E n cx (ORec content t pre we re) w = (Ok (o, p), w') ->
  exists k, n = S k /\
  ((exists q, p = typed n_record q /\ ser_rec E (depth E k) cx content t pre we re w = (Ok (o, q), w')) \/
   (exists e, is_ser_error e = false /\ s_validate E = false /\ o = ORec content t pre we re /\
    p = typed (mark_name MExcUnser) (mark_content (mkMark MExcUnser None)) /\
    ser_rec E (depth E k) cx content t pre we re w = (Exn e, w'))).
Proof.
  destruct n as [|n]; [discriminate|]. intros H. exists n. split; [reflexivity|].
  change (ser_body E (depth E n) cx false (ORec content t pre we re) w = (Ok (o, p), w')) in H. unfold ser_body in H.
  cbn [ser_method] in H. apply mbind_ok in H as (r & w1 & H1 & H). apply attempt_ok in H1. destruct r as [[o1 p1]|e].
  - unfold ret in H. injection H as <- <- <-. left. exists p1. split; [reflexivity|exact H1].
  - destruct (is_ser_error e) eqn:Ee; [discriminate|]. apply mbind_ok in H as (u & w2 & H2 & H). apply invalid_ok in H2 as [-> Hv].
    unfold ret in H. injection H as <- <- <-. right. exists e. repeat (split; [assumption || reflexivity|]). exact H1.
Qed.

(** ** Contents with their own write and read method *)
Lemma write_file_errors n l c e : write_file n l c = Exn e -> is_ser_error e = false /\ e <> UserQuitException.
Proof.
  revert n. induction l as [|x r IH]; intros n H; cbn in H; [injection H as <-; split; [reflexivity|discriminate]|].
  destruct n as [c0|es]; [injection H as <-; split; [reflexivity|discriminate]|]. destruct r as [|y r].
  - destruct (assoc x es) as [[|]|]; try discriminate. injection H as <-; split; [reflexivity|discriminate].
  - destruct (assoc x es) as [m|]; [|injection H as <-; split; [reflexivity|discriminate]].
    destruct (write_file m (y :: r) c) eqn:Ew; [discriminate|]. injection H as <-. eapply IH. exact Ew.
Qed.
Lemma location_any_cwd a b d : absolute d -> location a d = location b d.
Proof. intros H. unfold location. destruct d as [|c r]; [destruct H as [? H]; discriminate|]. destruct H as [r0 H]. injection H as -> _. reflexivity. Qed.
Lemma write_leaf E F local l c d x w o' w' : (forall k, s_write E c k d = (Some x, None)) ->
  write_storable E F local l (OLeaf c d) w = (Ok o', w') ->
  o' = OLeaf c d /\ w_mounts w' = w_mounts w /\ forall q, file_at (w_fs w') q = if loc_eq_dec q l then Some x else file_at (w_fs w) q.
Proof.
  intros Hx H. unfold write_storable in H. rewrite Hx in H. apply mbind_ok in H as (u & w1 & H1 & H). unfold ret in H. injection H as <- <-.
  split; [reflexivity|]. apply m_write_inv in H1. inversion H1 as [| |fs Hw Hu Hw1]; subst. split; [reflexivity|].
  cbn [set_fs w_fs]. apply (write_file_lookup _ _ _ _ Hw).
Qed.
Lemma ctx_prepare_ign_ok E j D1 cx t w r w' : absolute (s_cwd E) -> absolute D1 ->
  ctx_prepare E cx t (Some ($"_ignore")) w = (Ok r, w') -> mnt_ok j D1 w -> mnt_ok j D1 w'.
Proof.
  intros Hc Hd H Hok. unfold ctx_prepare in H. apply mbind_ok in H as (a & w1 & H1 & H). unfold lift in H1. injection H1 as _ <-.
  apply mbind_ok in H as (p & w1 & H1 & H). unfold lift in H1. injection H1 as _ <-.
  apply mbind_ok in H as (u & w1 & Hm & H). apply mbind_ok in H as (nn & w2 & H1 & H). unfold lift in H1. injection H1 as _ <-.
  assert (w1 = w').
  { destruct (t_subdir u); [|discriminate]. apply mbind_ok in H as (nt & w2 & H1 & H). unfold lift in H1. injection H1 as _ <-. unfold ret in H. congruence. }
  subst w1. assert (Ho : only j D1 (fun _ => True) w w').
  { eapply (only_prepare E j D1 Hc Hd (fun _ => True) (c_mnt cx) p (Some ($"_ignore"))); [intros _; right; right; right; left; reflexivity|exact Hm]. }
  apply Ho. exact Hok.
Qed.
Lemma ctx_read_leaf E i D0 F cx comps t cs w ty c x d : absolute (s_cwd E) -> absolute D0 -> s_limit E = None ->
  location (s_cwd E) D0 = comps_cp D0 -> mnt_ok i D0 w -> sctx i comps cx -> places t cs ->
  file_at (w_fs w) (location (s_cwd E) D0 ++ comps ++ cs) = Some x -> sto_ty E ty = Some (STLeaf c) ->
  (forall k, s_read E c k x = Ok d) ->
  exists w', ctx_read E F cx t (Some ty) w = (Ok (OLeaf c d), w') /\ (forall j D1, absolute D1 -> mnt_ok j D1 w -> mnt_ok j D1 w') /\ forall q, file_at (w_fs w') q = file_at (w_fs w) q.
Proof.
  intros Hc Hd Hl HD Hok Hs Hp Hf Hty Hr. pose proof (places_clean t cs Hp) as [_ Hne].
  assert (Hcs : exists l0 z, cs = l0 ++ [z]) by (destruct (exists_last Hne) as (l0 & z & Hz); eauto). destruct Hcs as (l0 & z & ->).
  destruct (read_place E i D0 Hc Hd comps cx t (l0 ++ [z]) w Hl HD Hok Hs Hp) as (local & nt & w1 & H1 & H2 & H3 & H4 & H5).
  { rewrite removelast_last. intros q Hq. rewrite !app_assoc in Hf. eapply file_free; [exact Hf|]. rewrite <- app_assoc. exact Hq. }
  exists (logged (EvRead (location (s_cwd E) D0 ++ comps ++ l0 ++ [z])) w1). unfold ctx_read, attempt. unfold mbind at 1. unfold mbind at 1. rewrite H1.
  unfold mbind at 1. rewrite (H5 w1 H3). unfold read_storable. rewrite Hty. unfold mbind at 1. unfold m_read at 1. rewrite op_free by assumption.
  assert (Hlk : lookup (w_fs w1) (location (s_cwd E) D0 ++ comps ++ l0 ++ [z]) = Some (File x)).
  { rewrite <- H4 in Hf. unfold file_at in Hf. destruct (lookup _ _) as [[|]|]; congruence. }
  cbn [logged w_fs]. rewrite Hlk. unfold mbind, lift. rewrite Hr. unfold ret. split; [reflexivity|]. split; [|exact H4].
  intros j D1 HD1 Hj. apply (ctx_prepare_ign_ok E j D1 _ _ _ _ _ Hc HD1 H1 Hj).
Qed.

(** ** Reading the serialized form of a record back *)
Lemma de_record_form E n cx w dir s ty : ctx_dir cx w = (Ok dir, w) ->
  deserialize E (S n) (Some cx) (record_form s ty) w = (Ok (ORec (OUnloaded ty (from_path s) dir cx) (from_path s) false None None), w).
Proof.
  intros Hd. unfold deserialize. cbn [depth f_de]. unfold record_form, de_body.
  match goal with |- context [assoc_a (AStr SER_TYPE) ?l] => assert (Ha : assoc_a (AStr SER_TYPE) l = Some (PAtom (AStr ($"_ser__record")))) by reflexivity end.
  rewrite Ha. assert (Hr : ser_ty E ($"_ser__record") = Some DRec) by reflexivity. rewrite Hr.
  match goal with |- context [assoc_a (AStr SER_CONTENT) ?l] => assert (Hb : assoc_a (AStr SER_CONTENT) l = Some (PDict [(AStr ($"target"), PAtom (AStr s)); (AStr ($"sto_type"), match ty with Some t => PAtom (AStr t) | None => PAtom ANone end)])) by reflexivity end.
  rewrite Hb. unfold de_object, de_rec, mbind, attempt.
  match goal with |- context [get "target" ?l] => assert (Hg : get "target" l = Some (PAtom (AStr s))) by reflexivity;
    assert (Hy : get_str "sto_type" l = ty) by (destruct ty; reflexivity); assert (Hpre : get_bool "preload" false l = false) by (destruct ty; reflexivity);
    assert (Hex : get "exceptions" l = None) by (destruct ty; reflexivity) end.
  rewrite Hg, Hy, Hpre, Hex, Hd. unfold ret. reflexivity.
Qed.

Lemma de_preload_form E n cx w dir s ty : ctx_dir cx w = (Ok dir, w) ->
  deserialize E (S n) (Some cx) (preload_form s ty) w =
  match rec_load E (depth E n) (OUnloaded ty (from_path s) dir cx) None w with
  | (Ok y, w') => (Ok (ORec (snd (fst y)) (from_path s) true None None), w')
  | (Exn e, w') => if is_ser_error e then (Exn e, w') else
      (_ <- invalid_found E;; ret (OMark (mkMark MExcUndeser None))) w'
  end.
Proof.
  intros Hd. unfold deserialize. cbn [depth f_de]. unfold preload_form, de_body.
  match goal with |- context [assoc_a (AStr SER_TYPE) ?l] => assert (Ha : assoc_a (AStr SER_TYPE) l = Some (PAtom (AStr ($"_ser__record")))) by reflexivity end.
  rewrite Ha. assert (Hr : ser_ty E ($"_ser__record") = Some DRec) by reflexivity. rewrite Hr.
  match goal with |- context [assoc_a (AStr SER_CONTENT) ?l] => assert (Hb : assoc_a (AStr SER_CONTENT) l = Some (PDict [(AStr ($"target"), PAtom (AStr s)); (AStr ($"sto_type"), match ty with Some t => PAtom (AStr t) | None => PAtom ANone end); (AStr ($"preload"), PAtom (ABool true))])) by reflexivity end.
  rewrite Hb. unfold de_object, de_rec. 
  match goal with |- context [get "target" ?l] => assert (Hg : get "target" l = Some (PAtom (AStr s))) by reflexivity;
    assert (Hy : get_str "sto_type" l = ty) by (destruct ty; reflexivity); assert (Hpre : get_bool "preload" false l = true) by (destruct ty; reflexivity);
    assert (Hex : get "exceptions" l = None) by (destruct ty; reflexivity) end.
  rewrite Hg, Hy, Hpre, Hex. cbn zeta. unfold attempt, mbind. rewrite Hd. unfold ret. cbn [fst snd].
  destruct (rec_load _ _ _ _ _) as [[y|e] w1]; [reflexivity|]. destruct (is_ser_error e); reflexivity.
Qed.

(** Reading that fails. *)
Lemma ctx_read_missing E i D0 F cx comps t cs w ty : absolute (s_cwd E) -> absolute D0 -> s_limit E = None -> s_validate E = false ->
  location (s_cwd E) D0 = comps_cp D0 -> mnt_ok i D0 w -> sctx i comps cx -> places t cs ->
  (forall q, is_prefix q (location (s_cwd E) D0 ++ comps ++ cs) = true -> file_at (w_fs w) q = None) ->
  is_dir (w_fs w) (location (s_cwd E) D0 ++ comps ++ cs) = false -> sto_ty E ty <> None ->
  exists w', ctx_read E F cx t (Some ty) w = (Ok (OMark (mkMark MNoFile (Some ty))), w') /\ mnt_ok i D0 w' /\ forall q, file_at (w_fs w') q = file_at (w_fs w) q.
Proof.
  intros Hc Hd Hl Hv HD Hok Hs Hp Hf Hnd Hty. pose proof (places_clean t cs Hp) as [_ Hne].
  assert (Hcs : exists l0 z, cs = l0 ++ [z]) by (destruct (exists_last Hne) as (l0 & z & Hz); eauto). destruct Hcs as (l0 & z & ->).
  destruct (read_place_dirs E i D0 Hc Hd comps cx t (l0 ++ [z]) w Hl HD Hok Hs Hp) as (local & nt & w1 & H1 & H2 & H3 & H4 & H6 & H5).
  { rewrite removelast_last. intros q Hq. apply Hf. apply is_prefix_iff in Hq as [r Hr]. apply is_prefix_iff. exists (r ++ [z]). rewrite !app_assoc in *. rewrite Hr. reflexivity. }
  set (l := location (s_cwd E) D0 ++ comps ++ l0 ++ [z]) in *.
  assert (Hlk : lookup (w_fs w1) l = None).
  { assert (Hfl : file_at (w_fs w1) l = None) by (rewrite H4; apply Hf; apply is_prefix_iff; exists []; rewrite app_nil_r; reflexivity).
    assert (Hdl : is_dir (w_fs w1) l = false).
    { rewrite H6, Hnd, removelast_last. cbn [orb]. destruct (is_prefix l _) eqn:Ex; [|reflexivity]. exfalso. apply is_prefix_iff in Ex as [r Hr].
      apply (f_equal (@List.length _)) in Hr. unfold l in Hr. rewrite !app_length in Hr. cbn in Hr. lia. }
    unfold file_at in Hfl. unfold is_dir in Hdl. destruct (lookup (w_fs w1) l) as [[|]|]; congruence. }
  exists (logged (EvRead l) w1). split; [|split; [exact H3|exact H4]].
  unfold ctx_read, attempt. unfold mbind at 1. unfold mbind at 1. rewrite H1.
  unfold mbind at 1. rewrite (H5 w1 H3). fold l. unfold read_storable.
  assert (Hm : m_read E l w1 = (Exn FileNotFoundError, logged (EvRead l) w1)).
  { unfold m_read. rewrite op_free by assumption. cbn [logged w_fs]. rewrite Hlk. reflexivity. }
  destruct (sto_ty E ty) as [[c|dt]|]; [| |congruence]; unfold mbind at 1; rewrite Hm; unfold mbind, invalid_found; rewrite Hv; reflexivity.
Qed.
Lemma ctx_read_raises E i D0 F cx comps t cs w ty c x e : absolute (s_cwd E) -> absolute D0 -> s_limit E = None -> s_validate E = false ->
  location (s_cwd E) D0 = comps_cp D0 -> mnt_ok i D0 w -> sctx i comps cx -> places t cs ->
  file_at (w_fs w) (location (s_cwd E) D0 ++ comps ++ cs) = Some x -> sto_ty E ty = Some (STLeaf c) ->
  (forall k, s_read E c k x = Exn e) -> is_ser_error e = false -> e <> FileNotFoundError ->
  exists w', ctx_read E F cx t (Some ty) w = (Ok (OMark (mkMark MExcUnReadable (Some ty))), w') /\ mnt_ok i D0 w' /\ forall q, file_at (w_fs w') q = file_at (w_fs w) q.
Proof.
  intros Hc Hd Hl Hv HD Hok Hs Hp Hf Hty Hr He Hfn. pose proof (places_clean t cs Hp) as [_ Hne].
  assert (Hcs : exists l0 z, cs = l0 ++ [z]) by (destruct (exists_last Hne) as (l0 & z & Hz); eauto). destruct Hcs as (l0 & z & ->).
  destruct (read_place E i D0 Hc Hd comps cx t (l0 ++ [z]) w Hl HD Hok Hs Hp) as (local & nt & w1 & H1 & H2 & H3 & H4 & H5).
  { rewrite removelast_last. intros q Hq. rewrite !app_assoc in Hf. eapply file_free; [exact Hf|]. rewrite <- app_assoc. exact Hq. }
  exists (logged (EvRead (location (s_cwd E) D0 ++ comps ++ l0 ++ [z])) w1). unfold ctx_read, attempt. unfold mbind at 1. unfold mbind at 1. rewrite H1.
  unfold mbind at 1. rewrite (H5 w1 H3). unfold read_storable. rewrite Hty. unfold mbind at 1. unfold m_read at 1. rewrite op_free by assumption.
  assert (Hlk : lookup (w_fs w1) (location (s_cwd E) D0 ++ comps ++ l0 ++ [z]) = Some (File x)).
  { rewrite <- H4 in Hf. unfold file_at in Hf. destruct (lookup _ _) as [[|]|]; congruence. }
  cbn [logged w_fs]. rewrite Hlk. unfold mbind, lift. rewrite Hr. split; [|split; [exact H3|exact H4]].
  rewrite He. unfold invalid_found. rewrite Hv. destruct e; try reflexivity; congruence.
Qed.

(** [Context.write] of an ordinary target in a place where no file is in the way. *)
Lemma ctx_write_fwd E i D0 F cx comps t cs o w : absolute (s_cwd E) -> absolute D0 -> s_limit E = None -> In (s_retouch E) unattended ->
  s_retouch E <> $"quit" -> location (s_cwd E) D0 = comps_cp D0 -> mnt_ok i D0 w -> sctx i comps cx -> places t cs ->
  (forall q, is_prefix q (location (s_cwd E) D0 ++ comps ++ removelast cs) = true -> file_at (w_fs w) q = None) ->
  exists p u n' w1 local out, plain n' /\ gave E i D0 p None w u (comps ++ cs) (comps ++ removelast cs ++ [n']) w1 /\ mnt_ok i D0 w1 /\
    places out (removelast cs ++ [n']) /\ (exists z, fspath out = Ok z /\ proper z /\ from_path z = out) /\
    sctx i (comps ++ removelast cs) local /\
    ctx_write E F cx t o w =
      match write_storable E F local (location (s_cwd E) D0 ++ comps ++ removelast cs ++ [n']) o w1 with
      | (Ok o', w') => (Ok (out, None, o'), w')
      | (Exn e, w') => if is_ser_error e then (Exn e, w') else
          match e with
          | UserQuitException => (Exn StoreError, w')
          | _ => (_ <- invalid_found E;; ret (out, Some (EMark (mkMark MExcUnWritable (sto_name E o))), o)) w'
          end
      end.
Proof.
  intros Hc Hd Hl Hu Hnq HD Hok Hs Hp Hfree.
  assert (Hz : exists z, fspath t = Ok z). { destruct Hp as (sd & nm & H1 & H2 & _). eexists. eapply fspath_name; eassumption. }
  destruct Hz as [z Hz]. pose proof (places_from_path t cs z Hp Hz) as Hp'.
  destruct (ctx_prepare_succeeds E i D0 Hc Hd comps cx (from_path z) cs None w Hl HD Hok Hs Hp' Hu Hnq Hfree) as (local & nt & w1 & H1).
  destruct (ctx_prepare_gave E i D0 Hc Hd comps cx (from_path z) cs None w local nt w1 Hok Hs Hp' Hu H1) as (q & u & n' & Hpn & Hg & Hsl & _ & Hn & Hok1 & Hpath).
  assert (Hout : exists out, update (from_path z) None None None (Some n') = Ok out).
  { unfold update, Target. destruct (splitext n'). eexists. reflexivity. }
  destruct Hout as [out Hout]. pose proof (plain_clean n' Hpn) as (_ & _ & _ & Hns).
  exists q, u, n', w1, local, out. repeat (split; [assumption|]). split; [eapply places_rename; eassumption|].
  split; [eapply renamed_proper; eassumption|]. split; [assumption|].
  unfold ctx_write. unfold mbind at 1. unfold attempt at 1. unfold mbind at 1. unfold lift at 1. rewrite Hz. unfold mbind at 1. rewrite H1. unfold ret at 1.
  unfold mbind at 1. unfold attempt. unfold mbind at 1. rewrite (Hpath w1 Hok1). unfold mbind at 1. unfold lift at 1. rewrite Hn. unfold mbind at 1. unfold lift at 1. rewrite Hout.
  unfold mbind at 1. destruct (write_storable E F local _ o w1) as [[o'|e] w2]; [reflexivity|]. destruct (is_ser_error e); [reflexivity|].
  assert (Hx : (_ <- invalid_found E;; n <- lift (t_name nt);; out <- lift (update (from_path z) None None None (Some n));; ret (out, Some (EMark (mkMark MExcUnWritable (sto_name E o))), o)) w2
     = (_ <- invalid_found E;; ret (out, Some (EMark (mkMark MExcUnWritable (sto_name E o))), o)) w2).
  { unfold invalid_found. destruct (s_validate E); [reflexivity|]. unfold mbind, ret, lift. rewrite Hn, Hout. reflexivity. }
  rewrite Hn in Hx. destruct e; first [exact Hx|reflexivity].
Qed.
