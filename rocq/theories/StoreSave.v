(** What a [save] that returned has done. *)
From Coq Require Import List Ascii String Bool Arith ZArith Lia.
From Verif Require Import Base PosixModel FsModel PathModel SerialModel StoreModel StoreFrame StoreMount StoreSpec StoreLocal StorePlace
     StoreRecord PathSpec MountSpec DirSpec PosixProof FsProof DirProof TargetProof MountProof HistoryProof PathFacts.
Import ListNotations.

Lemma plain_json x : plain x -> plain (x ++ $".json").
Proof.
  intros (H1 & H2 & H3 & H4).
  assert (Hl : 5 <= List.length (x ++ $".json")) by (rewrite app_length; cbn; lia).
  repeat split; try (intros Hx; rewrite Hx in Hl; cbn in Hl; lia).
  intros Hin. apply in_app_or in Hin as [Hin|Hin]; [exact (H4 Hin)|]. cbn in Hin. repeat (destruct Hin as [Hin|Hin]; [discriminate|]). exact Hin.
Qed.
Lemma join_sep_suffix l x s : join_sep (l ++ [x]) ++ s = join_sep (l ++ [x ++ s]).
Proof. induction l as [|y l IH]; [reflexivity|]. cbn [app]. destruct (l ++ [x]) eqn:E1; [destruct l; discriminate|]. destruct (l ++ [x ++ s]) eqn:E2; [destruct l; discriminate|].
  change (join_sep (y :: l0 :: l1)) with (y ++ sep :: join_sep (l0 :: l1)). change (join_sep (y :: l2 :: l3)) with (y ++ sep :: join_sep (l2 :: l3)).
  rewrite <- app_assoc. cbn [app]. rewrite IH. reflexivity. Qed.

Section Save.
Variable E : senv.
Hypothesis Hcwd : absolute (s_cwd E).
Hypothesis Hpol : In (s_retouch E) unattended.
Variable p : opts.
Variable k : str.
Hypothesis Hbase : absolute (o_base p).
Let D0 := key_dir p k.
Let D := location (s_cwd E) D0.
Let Hdir : absolute D0 := key_dir_absolute p k Hbase.

(** The file of the key is registered first, hence gets the name asked for. *)
Lemma json_prepared ks w local nt wa : ks <> [] -> Forall plain ks -> k = join_sep ks -> well_formed (w_fs w) ->
  let i := List.length (w_mounts w) in
  ctx_prepare E (mkCtx i []) (json_name k) None (opened p k w) = (Ok (local, nt), wa) ->
  let rest := removelast ks ++ [last ks [] ++ $".json"] in
  exists q u, gave E i D0 q None (opened p k w) u rest rest wa /\ mnt_ok i D0 wa /\
    fspath nt = Ok (last ks [] ++ $".json").
Proof.
  intros Hne Hpl Hk Hw i H rest.
  pose proof (opened_ok p k w Hw) as Hok. fold i D0 in Hok.
  destruct (ctx_prepare_inv E i D0 Hcwd Hdir (fun _ => True) (fun _ _ => I) [] _ _ None _ _ _ _ Hok (sctx_top i) Hpol H)
    as (a & q & u & r0 & Ha & Hf & Hm & Hr & Hsd & _ & Hn).
  destruct (m_prepare_gave E i D0 Hcwd Hdir q None _ u wa Hok Hpol Hm) as (r1 & r2 & Hg).
  assert (Hq : q = k ++ $".json").
  { unfold ctx_absolute, json_name in Ha. cbn [t_subdir c_sub] in Ha. cbn in Ha. injection Ha as <-. cbn in Hf. injection Hf as <-.
    destruct (k ++ _) as [|c s] eqn:Ek; [reflexivity|]. unfold join2. destruct (isabs (c :: s)); reflexivity. }
  assert (Hrest : Forall clean rest).
  { unfold rest. rewrite (@app_removelast_last _ ks []) in Hpl by assumption. apply Forall_app in Hpl as [Hp1 Hp2]. apply Forall_app. split.
    - eapply Forall_impl; [|exact Hp1]. exact plain_clean.
    - inversion Hp2 as [|? ? Hx _]; subst. constructor; [|constructor]. apply plain_clean. apply plain_json. assumption. }
  assert (Hreq : requested (s_cwd E) D0 q = D ++ rest).
  { assert (Hq2 : q = join_sep rest).
    { rewrite Hq, Hk. unfold rest. rewrite (@app_removelast_last _ ks []) at 1 by assumption. apply join_sep_suffix. }
    rewrite requested_join2, location_join2_any, Hq2, isabs_join_clean by assumption.
    rewrite split_join; [apply walk_clean_app; assumption|apply clean_split; assumption|unfold rest; destruct (removelast ks); discriminate]. }
  pose proof Hg as (m & touched & fs' & G1 & G2 & G3 & G4 & G5 & G6 & G7 & G8 & G9 & G10 & G11).
  assert (r1 = rest) by (rewrite Hreq in G2; apply app_inv_head in G2; congruence). subst r1.
  assert (r2 = rest).
  { apply G11. intros v s Hv. unfold opened in G1. cbn [w_mounts] in G1. unfold i in G1. rewrite nth_error_app2, Nat.sub_diag in G1 by lia.
    injection G1 as <-. contradiction. }
  subst r2. assert (r0 = rest) by (eapply rel_target_unique; eassumption). subst r0.
  exists q, u. split; [exact Hg|]. split.
  - assert (Ho : only i D0 (fun _ => True) (opened p k w) wa).
    { eapply only_prepare; [exact Hcwd|exact Hdir| |exact Hm]. intros _; exact Hpol. }
    apply Ho. assumption.
  - unfold fspath. rewrite Hsd. unfold t_name in Hn. destruct (t_stem nt); [|discriminate]. destruct (t_suffix nt); [|discriminate].
    injection Hn as Hn. rewrite Hn. unfold rest. rewrite last_last, join2_nil_l. destruct (removelast ks); reflexivity.
Qed.

Theorem save_inv_uuid n o w o' j w' ks : ks <> [] -> Forall plain ks -> k = join_sep ks -> well_formed (w_fs w) ->
  save E n p k o w = (Ok (o', j), w') ->
  let i := List.length (w_mounts w) in
  let rest := removelast ks ++ [last ks [] ++ $".json"] in
  let l := D ++ [last ks [] ++ $".json"] in
  exists o1 q u wa wb fs1 fs2 m,
    (o1 = o /\ is_serializable E o = true \/ o1 = fresh_record o /\ is_serializable E o = false /\ is_storable E o = true) /\
    gave E i D0 q None (opened p k w) u rest rest wa /\ mnt_ok i D0 wa /\
    serialize E n (Some (mkCtx i [])) o1 wa = (Ok (o', j), wb) /\ mnt_ok i D0 wb /\
    write_file (w_fs wb) l (Text []) = Ok fs1 /\ write_file fs1 l (Json (to_json (s_float E) j)) = Ok fs2 /\
    nth_error (w_mounts wb) i = Some m /\ nth_error (w_mounts w') i = Some m /\ m_dir m = D0 /\ mount_close (s_cwd E) fs2 m = Ok (w_fs w') /\
    w_log w' = EvClose i :: EvWrite l :: EvWrite l :: w_log wb /\ w_uuid w' = w_uuid wb.
Proof.
  intros Hne Hpl Hk Hw H i rest l. unfold save in H.
  apply mbind_ok in H as (o1 & w0 & Ho & H).
  assert (Ho1 : w0 = w /\ (o1 = o /\ is_serializable E o = true \/ o1 = fresh_record o /\ is_serializable E o = false /\ is_storable E o = true)).
  { destruct (is_serializable E o); [injection Ho as <- <-; auto|]. destruct (is_storable E o); [injection Ho as <- <-; auto|discriminate]. }
  clear Ho. destruct Ho1 as [-> Ho1]. apply mbind_ok in H as (cx & w1 & Ho & H). unfold open_context in Ho. injection Ho as <- Hw1. symmetry in Hw1.
  fold (opened p k w) in Hw1. subst w1. fold i in H.
  apply mbind_ok in H as ([local nt] & wa & Hp & H). cbn [snd] in H.
  destruct (json_prepared ks w local nt wa Hne Hpl Hk Hw Hp) as (q & u & Hg & Hoka & Hfs).
  apply mbind_ok in H as (dir & wx & Hd & H). destruct (ctx_dir_inv E i D0 Hdir _ _ _ Hoka Hd) as [Hd1 Hd2].
  assert (wx = wa) by (unfold ctx_dir, m_dir_of, mbind in Hd; destruct (nth_error _ _); [injection Hd; auto|discriminate]). subst wx.
  apply mbind_ok in H as (nm & wx & Hn & H). rewrite Hfs in Hn. assert (Q1 : nm = last ks [] ++ $".json") by (unfold lift in Hn; congruence). assert (wx = wa) by (unfold lift in Hn; congruence).
  subst nm wx. cbn zeta in H.
  assert (Hl : os_loc (s_cwd E) (join2 dir (last ks [] ++ $".json")) = l).
  { rewrite os_loc_location by assumption. rewrite location_snoc; [rewrite Hd1; reflexivity|]. apply plain_clean. apply plain_json.
    rewrite (@app_removelast_last _ ks []) in Hpl by assumption. apply Forall_app in Hpl as [_ Hp2]. inversion Hp2; subst; assumption. }
  rewrite Hl in H. apply mbind_ok in H as ([o2 j2] & wb & Hs & H). cbn [snd] in H.
  apply mbind_ok in H as ([] & wc & Hc1 & H). apply mbind_ok in H as ([] & wd & Hc2 & H). apply mbind_ok in H as ([] & we & Hc3 & H).
  injection H as Q1 Q2 Q3. subst o2 j2 we.
  apply m_write_inv in Hc1. inversion Hc1 as [| |fs1 Hf1 Hx Hy]; subst wc.
  apply m_write_inv in Hc2. inversion Hc2 as [| |fs2 Hf2 Hx2 Hy2]; subst wd. cbn [set_fs logged w_fs] in Hf2.
  assert (Hokb : mnt_ok i D0 wb).
  { pose proof (on_ser E i D0 Hcwd Hdir Hpol (fun _ => True) (fun _ _ => I) n (mkCtx i []) [] o1 (sctx_top i) wa Hoka) as Hons.
    rewrite Hs in Hons. apply Hons. assumption. }
  pose proof Hokb as [(m & Hm & Hmd & _) _].
  unfold close_context in Hc3. apply op_cases in Hc3 as [(Hx3 & _)|Hc3]; [discriminate|]. cbn [logged set_fs w_mounts w_fs c_mnt w_inputs w_uuid w_log] in Hc3.
  rewrite Hm in Hc3. destruct (mount_close (s_cwd E) fs2 m) as [fs3|e] eqn:Ec; [|discriminate]. injection Hc3 as Q4. subst w'.
  exists o1, q, u, wa, wb, fs1, fs2, m. repeat (split; [assumption|]). split; reflexivity.
Qed.
Theorem save_inv_log n o w o' j w' ks : ks <> [] -> Forall plain ks -> k = join_sep ks -> well_formed (w_fs w) ->
  save E n p k o w = (Ok (o', j), w') ->
  let i := List.length (w_mounts w) in
  let rest := removelast ks ++ [last ks [] ++ $".json"] in
  let l := D ++ [last ks [] ++ $".json"] in
  exists o1 q u wa wb fs1 fs2 m,
    (o1 = o /\ is_serializable E o = true \/ o1 = fresh_record o /\ is_serializable E o = false /\ is_storable E o = true) /\
    gave E i D0 q None (opened p k w) u rest rest wa /\ mnt_ok i D0 wa /\
    serialize E n (Some (mkCtx i [])) o1 wa = (Ok (o', j), wb) /\ mnt_ok i D0 wb /\
    write_file (w_fs wb) l (Text []) = Ok fs1 /\ write_file fs1 l (Json (to_json (s_float E) j)) = Ok fs2 /\
    nth_error (w_mounts wb) i = Some m /\ nth_error (w_mounts w') i = Some m /\ m_dir m = D0 /\ mount_close (s_cwd E) fs2 m = Ok (w_fs w') /\
    w_log w' = EvClose i :: EvWrite l :: EvWrite l :: w_log wb.
Proof.
  intros Hne Hpl Hk Hw H i rest l. destruct (save_inv_uuid n o w o' j w' ks Hne Hpl Hk Hw H) as (o1 & q & u & wa & wb & fs1 & fs2 & m & H1 & H2 & H3 & H4 & H5 & H6 & H7 & H8 & H9 & H10 & H11 & H12 & _).
  exists o1, q, u, wa, wb, fs1, fs2, m. repeat (split; [assumption|]). assumption.
Qed.
Theorem save_inv n o w o' j w' ks : ks <> [] -> Forall plain ks -> k = join_sep ks -> well_formed (w_fs w) ->
  save E n p k o w = (Ok (o', j), w') ->
  let i := List.length (w_mounts w) in
  let rest := removelast ks ++ [last ks [] ++ $".json"] in
  let l := D ++ [last ks [] ++ $".json"] in
  exists o1 q u wa wb fs1 fs2 m,
    (o1 = o /\ is_serializable E o = true \/ o1 = fresh_record o /\ is_serializable E o = false /\ is_storable E o = true) /\
    gave E i D0 q None (opened p k w) u rest rest wa /\ mnt_ok i D0 wa /\
    serialize E n (Some (mkCtx i [])) o1 wa = (Ok (o', j), wb) /\ mnt_ok i D0 wb /\
    write_file (w_fs wb) l (Text []) = Ok fs1 /\ write_file fs1 l (Json (to_json (s_float E) j)) = Ok fs2 /\
    nth_error (w_mounts wb) i = Some m /\ nth_error (w_mounts w') i = Some m /\ m_dir m = D0 /\ mount_close (s_cwd E) fs2 m = Ok (w_fs w').
Proof.
  intros Hne Hpl Hk Hw H i rest l. destruct (save_inv_log n o w o' j w' ks Hne Hpl Hk Hw H) as (o1 & q & u & wa & wb & fs1 & fs2 & m & H1 & H2 & H3 & H4 & H5 & H6 & H7 & H8 & H9 & H10 & H11 & _).
  exists o1, q, u, wa, wb, fs1, fs2, m. repeat (split; [assumption|]). assumption.
Qed.
End Save.
