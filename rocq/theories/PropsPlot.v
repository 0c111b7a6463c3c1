(** C87, C88: figures kept as files. *)
From Coq Require Import List Ascii String Bool Arith Lia.
From Verif Require Import Base PosixModel FsModel PathSpec PosixProof FsProof PlotModel.
Import ListNotations.

Local Arguments str_eq_dec : simpl never.

(** ** Specification *)
(** [fs'] differs from [fs] in one file only. *)
Definition put_at (fs fs' : node) (l : loc) (c : content) : Prop :=
  forall q, file_at fs' q = if loc_eq_dec q l then Some c else file_at fs q.

(** ** Proof *)
Lemma write_over fs l c0 c : file_at fs l = Some c0 -> l <> [] -> exists fs', write_file fs l c = Ok fs'.
Proof.
  intros H Hl. destruct (exists_last Hl) as (r & x & ->). apply write_file_ok.
  - unfold file_at in H. rewrite lookup_app in H. unfold is_dir. destruct (lookup fs r) as [[c1|es]|]; [cbn in H; discriminate|reflexivity|discriminate].
  - unfold file_at in H. unfold is_dir. destruct (lookup fs (r ++ [x])) as [[|]|]; congruence.
Qed.
Lemma file_exists fs l c : file_at fs l = Some c -> exists_at fs l = true.
Proof. unfold file_at, exists_at. destruct (lookup fs l) as [[|]|]; congruence. Qed.
Lemma file_lookup fs l c : file_at fs l = Some c -> lookup fs l = Some (File c).
Proof. unfold file_at. destruct (lookup fs l) as [[|]|]; congruence. Qed.

Lemma last_cons {A} (l : list A) : forall x d, last l x = last (x :: l) d.
Proof.
  induction l as [|a l IH]; intros x d; [reflexivity|]. change (last (x :: a :: l) d) with (last (a :: l) d). rewrite <- (IH a d).
  destruct l; [reflexivity|]. rewrite (IH a x). reflexivity.
Qed.

Section Plot.
Variable cwd : str.
Variable page : str -> res str.
Variable whole leftover : list str -> option content.
Hypothesis Hc : absolute cwd.
Notation pw := (pdf_write cwd page whole leftover).
Notation at_ := (location cwd).

Lemma pdf_copy p q fs c : p <> q -> file_at fs (at_ p) = Some c -> at_ p <> at_ q ->
  pw (pdf_read p) q fs = match write_file fs (at_ q) c with Ok fs' => (Ok tt, pdf_read q, fs') | Exn e => (Exn e, pdf_read p, fs) end.
Proof.
  intros Hpq Hf Hl. unfold pdf_write, pdf_read, copyfile. cbn [pd_fig pd_path]. rewrite !os_loc_location, (file_exists _ _ _ Hf), (file_lookup _ _ _ Hf) by assumption.
  destruct (str_eq_dec p q); [congruence|]. cbn [negb andb]. destruct (list_eq_dec str_eq_dec (at_ p) (at_ q)); [congruence|]. reflexivity.
Qed.
End Plot.

(** ** C87 *)
(** A figure that was read: writing it to the path it came from touches nothing. *)
Theorem C87_written_in_place_is_untouched : forall cwd page whole leftover p fs,
  pdf_write cwd page whole leftover (pdf_read p) p fs = (Ok tt, pdf_read p, fs).
Proof.
  intros. unfold pdf_write, pdf_read. cbn [pd_fig pd_path]. destruct (str_eq_dec p p); [|congruence]. rewrite andb_false_r. reflexivity.
Qed.
(** Written to another place it copies what the file it came from holds at that moment, whatever it held when the
    figure was read. *)
Theorem C87_copies_what_is_there_now : forall cwd page whole leftover p q fs c, absolute cwd ->
  file_at fs (location cwd p) = Some c -> location cwd p <> location cwd q ->
  (exists d x, location cwd q = d ++ [x] /\ is_dir fs d = true) -> is_dir fs (location cwd q) = false ->
  exists fs', pdf_write cwd page whole leftover (pdf_read p) q fs = (Ok tt, pdf_read q, fs') /\ put_at fs fs' (location cwd q) c.
Proof.
  intros cwd page whole leftover p q fs c Hc Hf Hl (d & x & Hq & Hd) Hn. rewrite pdf_copy with (c := c); [|assumption|congruence|assumption|assumption].
  rewrite Hq in *. destruct (write_file_ok fs d x c Hd Hn) as (fs' & Hw). rewrite Hw. exists fs'. split; [reflexivity|]. exact (write_file_lookup _ _ _ _ Hw).
Qed.
(** Moved through any number of places it shows the content it had at first, and so does every place on the way; all
    other files are as they were. *)
Fixpoint write_all cwd page whole leftover (g : pdf) (ps : list str) (fs : node) : res unit * pdf * node :=
  match ps with
  | [] => (Ok tt, g, fs)
  | p :: r => match pdf_write cwd page whole leftover g p fs with (Ok _, g', fs') => write_all cwd page whole leftover g' r fs' | x => x end
  end.
Theorem C87_content_follows : forall cwd page whole leftover ps p fs c g' fs', absolute cwd ->
  file_at fs (location cwd p) = Some c ->
  write_all cwd page whole leftover (pdf_read p) ps fs = (Ok tt, g', fs') ->
  g' = pdf_read (last ps p) /\
  forall q, (In q (map (location cwd) (p :: ps)) -> file_at fs' q = Some c) /\ (~ In q (map (location cwd) ps) -> file_at fs' q = file_at fs q).
Proof.
  intros cwd page whole leftover ps. induction ps as [|q0 r IH]; intros p fs c g' fs' Hc Hf H; cbn [write_all] in H.
  - injection H as <- <-. split; [reflexivity|]. intros q. split; [intros [<-|[]]; exact Hf|auto].
  - assert (Hstep : exists fs1, pdf_write cwd page whole leftover (pdf_read p) q0 fs = (Ok tt, pdf_read q0, fs1) /\ put_at fs fs1 (location cwd q0) c /\
      write_all cwd page whole leftover (pdf_read q0) r fs1 = (Ok tt, g', fs')).
    { destruct (str_eq_dec p q0) as [->|Hpq].
      - rewrite C87_written_in_place_is_untouched in H. exists fs. split; [apply C87_written_in_place_is_untouched|]. split; [|exact H].
        intros q. destruct (loc_eq_dec q (location cwd q0)); congruence.
      - destruct (loc_eq_dec (location cwd p) (location cwd q0)) as [He|Hl].
        + exfalso. unfold pdf_write, pdf_read, copyfile in H. cbn [pd_fig pd_path] in H. rewrite !os_loc_location, (file_exists _ _ _ Hf), (file_lookup _ _ _ Hf) in H by assumption.
          destruct (str_eq_dec p q0); [congruence|]. cbn [negb andb] in H. destruct (list_eq_dec str_eq_dec _ _); [discriminate|congruence].
        + rewrite pdf_copy with (c := c) in * by assumption. destruct (write_file fs (location cwd q0) c) as [fs1|e] eqn:Ew; [|discriminate].
          exists fs1. split; [reflexivity|]. split; [exact (write_file_lookup _ _ _ _ Ew)|exact H]. }
    destruct Hstep as (fs1 & _ & Hput & Hrest).
    assert (Hf1 : file_at fs1 (location cwd q0) = Some c) by (rewrite Hput; destruct (loc_eq_dec _ _); congruence).
    destruct (IH q0 fs1 c g' fs' Hc Hf1 Hrest) as [Hg Hq]. split; [rewrite Hg; f_equal; apply last_cons|].
    intros q. destruct (Hq q) as [A B]. split.
    + intros [<-|Hin]; [|apply A; exact Hin]. destruct (in_dec loc_eq_dec (location cwd p) (map (location cwd) r)) as [Hi|Hi].
      * apply A. right. exact Hi.
      * rewrite B by exact Hi. rewrite Hput. destruct (loc_eq_dec _ _); congruence.
    + intros Hin. rewrite B by (intros Hi; apply Hin; right; exact Hi). rewrite Hput. destruct (loc_eq_dec q (location cwd q0)) as [->|]; [|reflexivity].
      exfalso. apply Hin. left. reflexivity.
Qed.
(** The file it came from is gone: the write reports success and writes nothing, and the figure now stands for the
    file at the new place, so that a stale file there is taken for it. *)
Theorem C87_vanished_source : forall cwd page whole leftover p q fs, absolute cwd -> exists_at fs (location cwd p) = false ->
  pdf_write cwd page whole leftover (pdf_read p) q fs = (Ok tt, pdf_read q, fs).
Proof.
  intros cwd page whole leftover p q fs Hc H. unfold pdf_write, pdf_read. cbn [pd_fig pd_path]. rewrite os_loc_location, H by assumption. reflexivity.
Qed.
Theorem C87_stale_file_taken_over : forall cwd page whole leftover p q s fs c, absolute cwd ->
  exists_at fs (location cwd p) = false -> file_at fs (location cwd q) = Some c -> location cwd q <> location cwd s ->
  (exists d x, location cwd s = d ++ [x] /\ is_dir fs d = true) -> is_dir fs (location cwd s) = false ->
  exists fs', write_all cwd page whole leftover (pdf_read p) [q; s] fs = (Ok tt, pdf_read s, fs') /\ put_at fs fs' (location cwd s) c.
Proof.
  intros cwd page whole leftover p q s fs c Hc Hp Hq Hl Hd Hn. cbn [write_all]. rewrite C87_vanished_source by assumption.
  destruct (C87_copies_what_is_there_now cwd page whole leftover q s fs c Hc Hq Hl Hd Hn) as (fs' & H & Hput). rewrite H. exists fs'. auto.
Qed.
(** Two figures read from two files and written to each other's place: both files end up with the first one's content.
    What the second file held is nowhere. *)
Theorem C87_swap_loses_one : forall cwd page whole leftover p1 p2 fs c1 c2, absolute cwd ->
  location cwd p1 <> location cwd p2 -> file_at fs (location cwd p1) = Some c1 -> file_at fs (location cwd p2) = Some c2 ->
  exists fs1 fs2, pdf_write cwd page whole leftover (pdf_read p1) p2 fs = (Ok tt, pdf_read p2, fs1) /\
    pdf_write cwd page whole leftover (pdf_read p2) p1 fs1 = (Ok tt, pdf_read p1, fs2) /\ put_at fs fs2 (location cwd p2) c1 /\
    file_at fs2 (location cwd p1) = Some c1.
Proof.
  intros cwd page whole leftover p1 p2 fs c1 c2 Hc Hl H1 H2.
  assert (Hn : forall p c fs0, file_at fs0 (location cwd p) = Some c -> forall p' c', location cwd p' <> location cwd p -> file_at fs0 (location cwd p') = Some c' -> location cwd p <> []).
  { intros p c fs0 Hf p' c' Hd Hf' He. rewrite He in *. destruct fs0; [|discriminate]. unfold file_at in Hf'. destruct (location cwd p'); [congruence|discriminate]. }
  destruct (write_over fs (location cwd p2) c2 c1 H2) as (fs1 & W1); [eapply Hn; eauto|].
  pose proof (write_file_lookup _ _ _ _ W1) as P1.
  assert (F1 : file_at fs1 (location cwd p1) = Some c1) by (rewrite P1; destruct (loc_eq_dec _ _); congruence).
  assert (F2 : file_at fs1 (location cwd p2) = Some c1) by (rewrite P1; destruct (loc_eq_dec _ _); congruence).
  destruct (write_over fs1 (location cwd p1) c1 c1 F1) as (fs2 & W2); [eapply (Hn p1 c1 fs1 F1 p2); eauto|].
  pose proof (write_file_lookup _ _ _ _ W2) as P2.
  exists fs1, fs2. split; [rewrite pdf_copy with (c := c1) by congruence; rewrite W1; reflexivity|].
  split; [rewrite pdf_copy with (c := c1) by congruence; rewrite W2; reflexivity|]. split.
  - intros q. rewrite P2, P1. destruct (loc_eq_dec q (location cwd p1)) as [->|]; [|reflexivity]. destruct (loc_eq_dec _ _); congruence.
  - rewrite P2. destruct (loc_eq_dec _ _); congruence.
Qed.
(** The same place under another spelling, and a figure without a path: refused, nothing changes. *)
Theorem C87_refused : forall cwd page whole leftover p q fs c, absolute cwd ->
  (p <> q -> location cwd p = location cwd q -> file_at fs (location cwd p) = Some c ->
     pdf_write cwd page whole leftover (pdf_read p) q fs = (Exn OSError, pdf_read p, fs)) /\
  pdf_write cwd page whole leftover (mkPdf None None) q fs = (Exn TypeError, mkPdf None None, fs).
Proof.
  intros cwd page whole leftover p q fs c Hc. split; [|reflexivity]. intros Hpq Hl Hf. unfold pdf_write, pdf_read, copyfile. cbn [pd_fig pd_path].
  rewrite !os_loc_location, (file_exists _ _ _ Hf), (file_lookup _ _ _ Hf) by assumption. destruct (str_eq_dec p q); [congruence|]. cbn [negb andb].
  destruct (list_eq_dec str_eq_dec _ _); [reflexivity|congruence].
Qed.
(** A TexFigure that was read can be written to its own path only; to any other it raises TypeError and writes
    nothing. *)
Theorem C87_tex_stays : forall cwd tikz p q fs,
  tex_write cwd tikz (tex_read p) q fs = if str_eq_dec p q then (Ok tt, tex_read p, fs) else (Exn TypeError, tex_read p, fs).
Proof. intros. unfold tex_write, tex_read. cbn. destruct (str_eq_dec p q) as [->|]; reflexivity. Qed.
(** A figure in memory is drawn, whatever the file held and wherever it was written before. *)
Theorem C87_drawn_figure : forall cwd page whole leftover ds bs path old fs fs' c, absolute cwd ->
  map page ds = map (@Ok str) bs -> whole bs = Some c -> write_file fs (location cwd path) c = Ok fs' ->
  pdf_write cwd page whole leftover (mkPdf (Some (map Fig ds)) old) path fs = (Ok tt, mkPdf (Some (map Fig ds)) (Some path), fs') /\
  put_at fs fs' (location cwd path) c.
Proof.
  intros cwd page whole leftover ds bs path old fs fs' c Hc Hm Hwh Hw. split; [|exact (write_file_lookup _ _ _ _ Hw)].
  assert (H : forall ds bs done, map page ds = map (@Ok str) bs -> pages page whole leftover (map Fig ds) done = (whole (done ++ bs), None)).
  { clear. induction ds as [|d ds IH]; intros [|b bs] done H; try discriminate; cbn; [rewrite app_nil_r; reflexivity|].
    injection H as H1 H2. rewrite H1, (IH bs) by assumption. rewrite <- app_assoc. reflexivity. }
  unfold pdf_write. cbn [pd_fig]. rewrite (H ds bs []) by assumption. cbn [app]. rewrite Hwh, os_loc_location, Hw by assumption. reflexivity.
Qed.

(** /w/a.pdf and /w/b.pdf, read and exchanged. *)
Definition pl_fs : node := Dir [($"w", Dir [($"a.pdf", File (Text ($"A"))); ($"b.pdf", File (Text ($"B")))])].
Definition pl_page (d : str) : res str := match d with [] => Exn RuntimeError | _ => Ok d end.
Definition pl_whole (l : list str) : option content := match l with [] => None | _ => Some (Text (List.concat l)) end.
Example C87_example :
  let W := pdf_write ($"/w") pl_page pl_whole pl_whole in
  absolute ($"/w") /\ location ($"/w") ($"a.pdf") <> location ($"/w") ($"/w/b.pdf") /\
  file_at pl_fs (location ($"/w") ($"a.pdf")) = Some (Text ($"A")) /\ file_at pl_fs (location ($"/w") ($"/w/b.pdf")) = Some (Text ($"B")) /\
  let fs2 := snd (W (pdf_read ($"/w/b.pdf")) ($"a.pdf") (snd (W (pdf_read ($"a.pdf")) ($"/w/b.pdf") pl_fs))) in
  file_at fs2 [$"w"; $"a.pdf"] = Some (Text ($"A")) /\ file_at fs2 [$"w"; $"b.pdf"] = Some (Text ($"A")) /\
  location ($"/w") ($"a.pdf") = location ($"/w") ($"./a.pdf") /\ fst (fst (W (pdf_read ($"a.pdf")) ($"./a.pdf") pl_fs)) = Exn OSError /\
  exists_at pl_fs (location ($"/w") ($"c.pdf")) = false /\ W (pdf_read ($"c.pdf")) ($"a.pdf") pl_fs = (Ok tt, pdf_read ($"a.pdf"), pl_fs) /\
  fst (fst (write_all ($"/w") pl_page pl_whole pl_whole (pdf_read ($"a.pdf")) [$"c.pdf"; $"d.pdf"; $"d.pdf"; $"a.pdf"] pl_fs)) = Ok tt /\
  file_at (snd (W (mkPdf (Some [Fig ($"x"); Fig ($"y")]) None) ($"a.pdf") pl_fs)) [$"w"; $"a.pdf"] = Some (Text ($"xy")).
Proof.
  cbn zeta. split; [eexists; reflexivity|]. split; [vm_compute; discriminate|]. repeat (split; [vm_compute; reflexivity|]). vm_compute. reflexivity.
Qed.

(** ** C88 *)
(** [n] cycles of saving a Figure and loading it. *)
Fixpoint cycles page whole leftover (n : nat) (l : list item) : list item :=
  match n with 0 => l | S n => figure_load (figure_save page whole leftover (cycles page whole leftover n l)) end.
(** [l] under [n] wrappers. *)
Fixpoint wrapped (n : nat) (l : list item) : list item := match n with 0 => l | S n => [Pkl (wrapped n l)] end.
Fixpoint item_size (x : item) : nat := match x with Fig _ => 1 | Pkl l => S (list_sum (map item_size l)) end.

(** Each cycle puts the list of figures into one more wrapper; the figures themselves are inside. *)
Theorem C88_each_cycle_wraps : forall page whole leftover n l, cycles page whole leftover n l = wrapped n l.
Proof.
  intros page whole leftover n l. induction n as [|n IH]; [reflexivity|]. cbn [cycles wrapped]. rewrite IH. unfold figure_load, figure_save.
  destruct (pages page whole leftover (wrapped n l) []). reflexivity.
Qed.
(** So what is loaded is never what was saved, after no number of cycles, *)
Theorem C88_never_what_was_saved : forall page whole leftover n l, n > 0 -> cycles page whole leftover n l <> l.
Proof.
  intros page whole leftover n l Hn H. rewrite C88_each_cycle_wraps in H.
  assert (G : forall n, list_sum (map item_size (wrapped n l)) = n + list_sum (map item_size l)).
  { induction n0 as [|k IH]; [reflexivity|]. cbn [wrapped map item_size list_sum fold_right]. rewrite IH. lia. }
  specialize (G n). rewrite H in G. lia.
Qed.
(** and saving it again always fails at the preview. *)
Theorem C88_second_save_fails : forall page whole leftover s,
  figure_save page whole leftover (figure_load s) = mkStored [Pkl (st_pickle s)] (leftover []) (Some ValueError).
Proof. reflexivity. Qed.
(** The first save of figures that can be drawn succeeds. *)
Theorem C88_first_save_works : forall page whole leftover ds bs, map page ds = map (@Ok str) bs ->
  figure_save page whole leftover (map Fig ds) = mkStored (map Fig ds) (whole bs) None.
Proof.
  intros page whole leftover ds bs H. unfold figure_save.
  assert (G : forall ds bs done, map page ds = map (@Ok str) bs -> pages page whole leftover (map Fig ds) done = (whole (done ++ bs), None)).
  { clear. induction ds as [|d ds IH]; intros [|b bs] done H; try discriminate; cbn; [rewrite app_nil_r; reflexivity|].
    injection H as H1 H2. rewrite H1, (IH bs) by assumption. rewrite <- app_assoc. reflexivity. }
  rewrite (G ds bs []) by assumption. reflexivity.
Qed.
Example C88_example :
  map pl_page [$"x"; $"y"] = map (@Ok str) [$"x"; $"y"] /\
  st_failed (figure_save pl_page pl_whole pl_whole [Fig ($"x"); Fig ($"y")]) = None /\
  cycles pl_page pl_whole pl_whole 2 [Fig ($"x"); Fig ($"y")] = [Pkl [Pkl [Fig ($"x"); Fig ($"y")]]].
Proof. vm_compute. auto. Qed.

Print Assumptions C87_written_in_place_is_untouched.
Print Assumptions C87_copies_what_is_there_now.
Print Assumptions C87_content_follows.
Print Assumptions C87_vanished_source.
Print Assumptions C87_stale_file_taken_over.
Print Assumptions C87_swap_loses_one.
Print Assumptions C87_refused.
Print Assumptions C87_tex_stays.
Print Assumptions C87_drawn_figure.
Print Assumptions C88_each_cycle_wraps.
Print Assumptions C88_never_what_was_saved.
Print Assumptions C88_second_save_fails.
Print Assumptions C88_first_save_works.
