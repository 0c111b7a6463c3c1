(** A relation between worlds that the file operations respect is respected by serialization,
    deserialization and removal of every object. *)
From Coq Require Import List Ascii String Bool Arith ZArith Lia.
From Verif Require Import Base PosixModel FsModel PathModel SerialModel StoreModel.
Import ListNotations.

Section Frame.
Variable E : senv.
Variable P : world -> Prop.
Variable R : world -> world -> Prop.
Hypothesis R_refl : forall w, R w w.
Hypothesis R_trans : forall a b c, R a b -> R b c -> R a c.
Hypothesis R_P : forall a b, P a -> R a b -> P b.

Definition pres {A} (m : M A) : Prop := forall w, P w -> R w (snd (m w)).

Lemma pres_ret {A} (a : A) : pres (ret a).
Proof. intros w _. apply R_refl. Qed.
Lemma pres_raise {A} e : pres (@raise A e).
Proof. intros w _. apply R_refl. Qed.
Lemma pres_lift {A} (r : res A) : pres (lift r).
Proof. intros w _. apply R_refl. Qed.
Lemma pres_bind {A B} (m : M A) (f : A -> M B) : pres m -> (forall a, pres (f a)) -> pres (mbind m f).
Proof.
  intros H G w Hw. unfold mbind. specialize (H w Hw). destruct (m w) as [[a|e] w']; cbn in *; [|exact H].
  eapply R_trans; [exact H|]. apply G. eapply R_P; eassumption.
Qed.
(** The continuation may use what the first part returned. *)
Lemma pres_bind_in {A B} (m : M A) (f : A -> M B) :
  pres m -> (forall a w w', P w -> m w = (Ok a, w') -> pres (f a)) -> pres (mbind m f).
Proof.
  intros H G w Hw. unfold mbind. pose proof (H w Hw) as H1. destruct (m w) as [[a|e] w'] eqn:Em; cbn in *; [|exact H1].
  eapply R_trans; [exact H1|]. eapply G; [exact Hw|exact Em|]. eapply R_P; eassumption.
Qed.
Lemma pres_attempt {A} (m : M A) : pres m -> pres (attempt m).
Proof. intros H w Hw. unfold attempt. specialize (H w Hw). destruct (m w). exact H. Qed.
Lemma pres_mapM {A B} (f : A -> M B) l : (forall x, In x l -> pres (f x)) -> pres (mapM f l).
Proof.
  induction l as [|x l IH]; intros H; cbn; [apply pres_ret|].
  apply pres_bind; [apply H; left; reflexivity|]. intros y. apply pres_bind; [apply IH; intros z Hz; apply H; right; exact Hz|].
  intros ys. apply pres_ret.
Qed.
Lemma pres_dep {A} (f : world -> M A) : (forall w, pres (f w)) -> pres (fun w => f w w).
Proof. intros H w Hw. apply H. exact Hw. Qed.

Variable i : nat.
Variable W : loc -> Prop.
Variable S : ctx -> Prop.
Hypothesis S_mnt : forall c, S c -> c_mnt c = i.
Hypothesis H_uuid : pres (m_uuid E).
Hypothesis H_read : forall l, pres (m_read E l).
Hypothesis H_ign : forall j p, pres (m_prepare E j p (Some ($"_ignore"))).
Hypothesis H_prep : forall p, pres (m_prepare E i p None).
Hypothesis H_rm : forall p, pres (m_remove E i p).
Hypothesis H_write : forall l c, W l -> pres (m_write E l c).
Hypothesis H_loc : forall cx t w local nt w', S cx -> P w -> ctx_prepare E cx t None w = (Ok (local, nt), w') ->
  S local /\ (forall w2 l w3, P w2 -> ctx_path E local nt w2 = (Ok l, w3) -> W l).

Lemma pres_dir_of j : pres (m_dir_of j).
Proof. intros w _. unfold m_dir_of. destruct (nth_error _ _); apply R_refl. Qed.
Lemma pres_invalid : pres (invalid_found E).
Proof. unfold invalid_found. destruct (s_validate E); [apply pres_raise|apply pres_ret]. Qed.

Create HintDb pres discriminated.
Hint Resolve pres_ret pres_raise pres_lift pres_attempt pres_dir_of pres_invalid H_uuid H_read H_ign H_prep : pres.
Ltac step :=
  match goal with
  | |- pres (mbind _ _) => apply pres_bind; [|intros ?]
  | |- pres (attempt _) => apply pres_attempt
  | |- pres (mapM _ _) => apply pres_mapM; intros ? ?
  | |- pres (match ?x with _ => _ end) => destruct x eqn:?
  | |- pres (let (_, _) := ?x in _) => destruct x eqn:?
  | |- pres (if ?x then _ else _) => destruct x eqn:?
  | |- pres (fun w => (_ <- _;; _) w) => apply pres_dep; intros ?
  | |- pres _ => solve [auto with pres]
  end.
Ltac go := repeat step.

Lemma pres_ctx_dir cx : pres (ctx_dir cx).
Proof. unfold ctx_dir. go. Qed.
Lemma pres_ctx_path local nt : pres (ctx_path E local nt).
Proof. unfold ctx_path. go. Qed.
Lemma pres_prep_ign cx t : pres (ctx_prepare E cx t (Some ($"_ignore"))).
Proof. unfold ctx_prepare. go. Qed.
Lemma pres_prep cx t : S cx -> pres (ctx_prepare E cx t None).
Proof. intros Hc. unfold ctx_prepare. rewrite (S_mnt _ Hc). go. Qed.
Lemma pres_target o t : pres (rec_target E o t).
Proof. unfold rec_target. go. Qed.
Hint Resolve pres_ctx_dir pres_ctx_path pres_prep_ign pres_prep pres_target : pres.

Definition pres_fns (F : fns) : Prop :=
  (forall cx co o, (forall c, cx = Some c -> S c) -> pres (f_ser F cx co o)) /\
  (forall cx x p, pres (f_de F cx x p)) /\
  (forall cx o, c_mnt cx = i -> pres (f_rm F cx o)).

Section Body.
Variable F : fns.
Hypothesis HF : pres_fns F.
Let F_ser := proj1 HF.
Let F_de := proj1 (proj2 HF).
Let F_rm := proj2 (proj2 HF).
Hint Resolve F_ser F_de F_rm : pres.

Lemma pres_write_storable local l o : S local -> W l -> pres (write_storable E F local l o).
Proof.
  intros Hl Hw. pose proof (fun c => H_write l c Hw) as Hwr.
  assert (HS : forall c, Some local = Some c -> S c) by (intros c Hc; inversion Hc; subst; exact Hl).
  destruct o; cbn [write_storable]; try solve [go].
  intros w Hw0. destruct (s_write E c (List.length (w_log w)) data) as [left e].
  change (R w (snd ((_ <- match left with Some x => m_write E l x | None => ret tt end;;
                     match e with Some e => raise e | None => ret (OLeaf c data) end) w))).
  apply (pres_bind (match left with Some x => m_write E l x | None => ret tt end)
                   (fun _ => match e with Some e => raise e | None => ret (OLeaf c data) end)); [go|intros _; go|exact Hw0].
Qed.
Lemma pres_read_storable local l ty : pres (read_storable E F local l ty).
Proof.
  unfold read_storable. destruct (match ty with Some t => sto_ty E t | None => None end) as [[c|d]|]; [| |go].
  - apply (pres_dep (fun w => x <- m_read E l;; d <- lift (s_read E c (List.length (w_log w)) x);; ret (OLeaf c d))).
    intros w. go.
  - go.
Qed.
Hint Resolve pres_read_storable : pres.

Lemma pres_ctx_write cx t o : S cx -> pres (ctx_write E F cx t o).
Proof.
  intros Hc. unfold ctx_write. apply pres_bind_in; [go|].
  intros a w w' Hw Ha. destruct a as [[t1 [local nt]]|e]; [|go].
  assert (HL : S local /\ (forall w2 l w3, P w2 -> ctx_path E local nt w2 = (Ok l, w3) -> W l)).
  { unfold attempt in Ha. unfold mbind at 1 in Ha. unfold lift at 1 in Ha.
    destruct (fspath t) as [p|e]; cbn in Ha; [|discriminate].
    unfold mbind at 1 in Ha. destruct (ctx_prepare E cx (from_path p) None w) as [[x|e] w1] eqn:Ep; cbn in Ha; [|discriminate].
    inversion Ha; subst. eapply H_loc; eassumption. }
  destruct HL as [HL1 HL2].
  apply pres_bind; [|intros a; go].
  apply pres_attempt. apply pres_bind_in; [go|]. intros l w2 w3 Hw2 Hl.
  pose proof (HL2 _ _ _ Hw2 Hl) as HWl. apply pres_bind; [go|intros n]. apply pres_bind; [go|intros out].
  apply pres_bind; [apply pres_write_storable; assumption|intros o']. go.
Qed.
Lemma pres_ctx_read cx t ty : pres (ctx_read E F cx t ty).
Proof. unfold ctx_read. go. Qed.
Hint Resolve pres_ctx_write pres_ctx_read : pres.
Lemma pres_rec_load c re : pres (rec_load E F c re).
Proof. unfold rec_load. go. Qed.
Hint Resolve pres_rec_load : pres.
Lemma pres_rec_store cx c t we re : (forall c, cx = Some c -> S c) -> pres (rec_store E F cx c t we re).
Proof.
  intros HS. unfold rec_store. destruct cx as [cx|]; [|go].
  assert (Hc : S cx) by (apply HS; reflexivity). go.
Qed.
Hint Resolve pres_rec_store : pres.
Lemma pres_rm_all cx l : (forall c, cx = Some c -> S c) -> pres (rm_all F cx l).
Proof.
  intros HS. unfold rm_all. destruct cx as [c|]; [|go]. apply pres_mapM. intros x _. apply F_rm. apply S_mnt. apply HS. reflexivity.
Qed.
Hint Resolve pres_rm_all : pres.
Lemma pres_ser_item cx o : (forall c, cx = Some c -> S c) -> pres (ser_item E F cx o).
Proof. intros HS. unfold ser_item. go. Qed.
Hint Resolve pres_ser_item : pres.
Lemma pres_ser_plain_item cx o : (forall c, cx = Some c -> S c) -> pres (ser_plain_item E F cx o).
Proof. intros HS. unfold ser_plain_item. go. Qed.
Hint Resolve pres_ser_plain_item : pres.
Lemma pres_ser_fields cx fds : forall fs, (forall c, cx = Some c -> S c) -> pres (ser_fields_m F cx fds fs).
Proof.
  induction fds as [|f fds IH]; intros fs HS; cbn [ser_fields_m]; [go|].
  destruct (mf_noser f); [apply IH; exact HS|]. destruct (assoc (mf_name f) fs) as [v|]; [|go].
  assert (Hg : pres (x <- f_ser F cx false v;; y <- ser_fields_m F cx fds (assoc_set (mf_name f) (fst x) fs);;
                     ret (fst y, (AStr (mf_name f), snd x) :: snd y))).
  { apply pres_bind; [auto with pres|intros x]. apply pres_bind; [apply IH; exact HS|intros y]. go. }
  destruct v; try exact Hg. destruct a; try exact Hg. apply IH. exact HS.
Qed.
Hint Resolve pres_ser_fields : pres.
Lemma pres_ser_method cx o n m : (forall c, cx = Some c -> S c) -> ser_method E F cx o = Some (n, m) -> pres m.
Proof.
  intros HS H. destruct o; cbn in H; try discriminate.
  - destruct (k_ser (s_class E c)) as [s|]; [|discriminate]. destruct (ser_ty E s); [|discriminate]. inversion H; subst.
    destruct (k_kind (s_class E c)); [go|]. unfold ser_model. go.
  - inversion H; subst. unfold ser_seq. go.
  - inversion H; subst. unfold ser_map. go.
  - inversion H; subst. unfold ser_rec. go.
  - inversion H; subst. go.
Qed.
Lemma pres_ser_body cx co o : (forall c, cx = Some c -> S c) -> pres (ser_body E F cx co o).
Proof.
  intros HS. assert (Hg : pres match ser_method E F cx o with
      | None =>
          _ <- invalid_found E;;
          ret (o, emit co (mark_name MUnser, mark_content (mkMark MUnser (type_name E o))))
      | Some (n, m) =>
          r <- attempt m;;
          match r with
          | Ok (o', p) => ret (o', emit co (n, p))
          | Exn e =>
              if is_ser_error e then raise e
              else _ <- invalid_found E;;
                   ret (o, emit co (mark_name MExcUnser, mark_content (mkMark MExcUnser (type_name E o))))
          end
      end).
  { destruct (ser_method E F cx o) as [[n m]|] eqn:Hm; [|go]. apply pres_bind; [|intros r; go].
    apply pres_attempt. eapply pres_ser_method; eassumption. }
  destruct o; try exact Hg; cbn [ser_body].
  - go.
  - unfold ser_list. go.
  - unfold ser_dict. go.
Qed.

Lemma pres_de_fields cx fds d : pres (de_fields E F cx fds d).
Proof.
  induction fds as [|f fds IH]; cbn [de_fields]; [go|]. apply pres_bind; [go|intros v]. apply pres_bind; [exact IH|intros r]. go.
Qed.
Hint Resolve pres_de_fields : pres.
Lemma pres_de_object cx ty p : pres (de_object E F cx ty p).
Proof.
  unfold de_object. apply pres_bind; [|intros r; go]. apply pres_attempt. destruct p as [| |d]; [go|go|]. destruct ty.
  - unfold de_rec. go.
  - unfold de_seq. go.
  - unfold de_map. go.
  - unfold de_model. go.
  - go.
Qed.
Hint Resolve pres_de_object : pres.
Lemma pres_de_body cx x p : pres (de_body E F cx x p).
Proof.
  assert (Hg : pres (
      o <- match x with
           | Some ty => de_object E F cx ty p
           | None =>
               match p with
               | PAtom a => ret (OAtom a)
               | PList l => vs <- mapM (f_de F cx None) l;; ret (OList vs)
               | PDict d =>
                   match assoc_a (AStr SER_TYPE) d with
                   | None => vs <- mapM (fun kv => v <- f_de F cx None (snd kv);; ret (fst kv, v)) d;; ret (ODict vs)
                   | Some (PAtom (AStr t)) =>
                       match ser_ty E t with
                       | None => ret (OMark (mkMark MUndeser None))
                       | Some ty => de_object E F cx ty match assoc_a (AStr SER_CONTENT) d with Some q => q | None => PDict [] end
                       end
                   | Some (PAtom _) => ret (OMark (mkMark MUndeser None))
                   | Some _ => raise TypeError
                   end
               end
           end;;
      match o with
      | OMark _ => _ <- invalid_found E;; ret o
      | _ => ret o
      end)).
  { apply pres_bind; [|intros o; go]. go. }
  unfold de_body. destruct p; try exact Hg. destruct a; try exact Hg. go.
Qed.
Lemma pres_rm_fields cx fds : c_mnt cx = i -> forall fs, pres (rm_fields F cx fds fs).
Proof.
  intros Hc. induction fds as [|f fds IH]; intros fs; cbn [rm_fields]; [go|]. destruct (mf_noser f); [apply IH|].
  destruct (assoc _ fs); [|go]. apply pres_bind; [go|intros v; apply IH].
Qed.
Hint Resolve pres_rm_fields : pres.
Lemma join_mnt cx s : c_mnt (ctx_join cx s) = c_mnt cx.
Proof. destruct s; reflexivity. Qed.
Lemma pres_rm_body cx o : c_mnt cx = i -> pres (rm_body E F cx o).
Proof.
  intros Hc. destruct o; cbn [rm_body]; try solve [go].
  pose proof (fun p => eq_ind_r (fun j => pres (m_remove E j p)) (H_rm p) Hc) as Hrm.
  unfold rm_rec. go; try apply Hrm; apply F_rm; rewrite join_mnt; assumption.
Qed.
End Body.

Theorem depth_pres : forall n, pres_fns (depth E n).
Proof.
  induction n as [|n IH]; (split; [|split]); intros; cbn [depth f_ser f_de f_rm].
  - apply pres_raise.
  - apply pres_raise.
  - apply pres_raise.
  - apply pres_ser_body; assumption.
  - apply pres_de_body; assumption.
  - apply pres_rm_body; assumption.
Qed.
End Frame.
