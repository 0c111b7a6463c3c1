(** C91: what [walk_directory] shows of a directory, and when it shows nothing. *)
From Coq Require Import Ascii String List Bool Arith Lia Permutation.
From Verif Require Import Base PosixModel PathModel PathSpec PosixProof TargetProof WalkModel.
Import ListNotations.

Local Arguments str_eq_dec : simpl never.
Local Arguments ascii_dec : simpl never.

(** ** Specification *)
Notation "'dotc'" := ("."%char : ascii) (only parsing).
(** [u] is the entry [n] of the directory reached from [t] through the directories [q]. *)
Inductive located : tree -> list str -> str -> tree -> Prop :=
| located_here es n u : In (n, u) es -> located (Dir es) [] n u
| located_in es m v q n u : In (m, v) es -> located v q n u -> located (Dir es) (m :: q) n u.
(** [s] is shown under the directories [q]. *)
Inductive shows : list shown -> list str -> shown -> Prop :=
| shows_here l s : In s l -> shows l [] s
| shows_in l m l' q s : In (SDir m l') l -> shows l' q s -> shows l (m :: q) s.
(** [l'] is what is shown of the directory reached through [q]. *)
Inductive level : list shown -> list str -> list shown -> Prop :=
| level_here l : level l [] l
| level_in l m l1 q l' : In (SDir m l1) l -> level l1 q l' -> level l (m :: q) l'.
(** The directory reached through [q]. *)
Inductive directory : tree -> list str -> list (str * tree) -> Prop :=
| directory_here es : directory (Dir es) [] es
| directory_in es m v q es' : In (m, v) es -> directory v q es' -> directory (Dir es) (m :: q) es'.

Definition not_hidden (n : str) : Prop := forall r, n <> dotc :: r.
Definition visible (show_hidden : bool) (q : list str) : Prop := show_hidden = true \/ forall n, In n q -> not_hidden n.

(** The extension of a file name, as [os.path.splitext] has it: from the last dot on, if something other than dots
    precedes it. *)
Inductive extension : str -> str -> Prop :=
| extension_some a x : ~ In dotc x -> (exists c, In c a /\ c <> dotc) -> extension (a ++ dotc :: x) (dotc :: x)
| extension_none n : (forall a x, n = a ++ dotc :: x -> forall c, In c a -> c = dotc) -> extension n [].
Definition wants (w : wanted) (n : str) : Prop :=
  match w with
  | WNone => False
  | WAll => True
  | WList l => exists e, extension n e /\ In e l
  | WStr s => exists e a b, extension n e /\ s = a ++ e ++ b
  end.
Definition control_char (c : ascii) : Prop :=
  let k := nat_of_ascii c in k < 7 \/ k = 11 \/ (14 <= k <= 26) \/ (28 <= k <= 31) \/ k = 127.
Definition textual (b : str) : Prop := forall i c, i < 1024 -> nth_error b i = Some c -> ~ control_char c.
Definition json_file (n : str) : Prop := exists a, a <> [] /\ n = a ++ $".json".

(** Lexicographic order of strings. *)
Definition lex_le (a b : str) : Prop :=
  (exists r, b = a ++ r) \/
  (exists p c d ra rb, a = p ++ c :: ra /\ b = p ++ d :: rb /\ nat_of_ascii c < nat_of_ascii d).
Definition name_of (s : shown) : str := match s with SDir n _ => n | SFile n _ _ => n end.
(** [s] may precede [s']: directories before files, then the lowered names. *)
Definition may_precede (s s' : shown) : Prop :=
  match s, s' with
  | SDir _ _, SFile _ _ _ => True
  | SFile _ _ _, SDir _ _ => False
  | _, _ => lex_le (lower (name_of s)) (lower (name_of s'))
  end.

(** ** Proof *)
Lemma is_prefix_iff a s : is_prefix a s = true <-> exists b, s = a ++ b.
Proof.
  revert s; induction a as [|c a IH]; intros s; simpl; [split; [exists s; reflexivity|reflexivity]|].
  destruct s as [|d s]; [split; [discriminate|intros [b H]; discriminate]|].
  destruct (ascii_dec c d) as [->|N].
  - rewrite IH. split; intros [b H]; exists b; congruence.
  - split; [discriminate|intros [b H]; congruence].
Qed.
Lemma is_infix_iff a s : is_infix a s = true <-> exists b c, s = b ++ a ++ c.
Proof.
  induction s as [|d s IH]; simpl; rewrite orb_true_iff, is_prefix_iff.
  - split; [intros [[c H]|H]; [exists [], c; exact H|discriminate]|]. intros ([|] & c & H); [left; exists c; exact H|discriminate].
  - rewrite IH. split.
    + intros [[c H]|(b & c & ->)]; [exists [], c; exact H|exists (d :: b), c; reflexivity].
    + intros ([|e b] & c & H); [left; exists c; exact H|]. right. injection H as <- ->. exists b, c. reflexivity.
Qed.

Lemma lead_dots_all s : forall c, In c (fst (lead_dots s)) -> c = dot_c.
Proof.
  induction s as [|d s IH]; simpl; [tauto|]. destruct (ascii_dec d dot_c) as [->|]; [|simpl; tauto].
  destruct (lead_dots s) as [x y]; simpl in *. intros c [H|H]; auto.
Qed.
Lemma split_last_sep_none n : ~ In ("/"%char : ascii) n -> split_last_sep n = ([], n).
Proof.
  induction n as [|c n IH]; simpl; intros H; [reflexivity|]. rewrite IH by tauto.
  destruct (ascii_dec c sep) as [->|]; [exfalso; apply H; left; reflexivity|reflexivity].
Qed.
Lemma extension_splitext n e : ~ In ("/"%char : ascii) n -> (extension n e <-> snd (splitext n) = e).
Proof.
  intros Hs. assert (F : forall e, extension n e -> snd (splitext n) = e).
  { intros e' H. destruct H as [a x Hx Hc|n H].
    - assert (E : splitext (a ++ dotc :: x) = (a, dotc :: x)); [|rewrite E; reflexivity]. apply (splitext_suffix a x); [exact Hx| |].
      + intros I. apply Hs, in_or_app. right; right; exact I.
      + unfold basename. rewrite split_last_sep_none; [exact Hc|]. intros I. apply Hs, in_or_app; left; exact I.
    - assert (E : splitext n = (n, [])); [|rewrite E; reflexivity].
      apply splitext_none. unfold basename. rewrite split_last_sep_none by exact Hs. unfold dots_then_none, nodot. simpl.
      pose proof (lead_dots_app n) as A. pose proof (lead_dots_rest n) as R.
      destruct (lead_dots n) as [d r]; simpl in *. intros I.
      destruct r as [|c r]; [contradiction|]. destruct I as [->|I]; [congruence|].
      apply in_split in I as (u & v & ->). apply R. apply (H (d ++ c :: u) v).
      + rewrite <- A. change dot_c with dotc. rewrite <- !app_assoc. reflexivity.
      + apply in_or_app; right; left; reflexivity. }
  split; [apply F|]. intros <-.
  unfold splitext. rewrite split_last_sep_none by exact Hs.
  pose proof (lead_dots_app n) as A. pose proof (lead_dots_rest n) as R. pose proof (lead_dots_all n) as D.
  destruct (lead_dots n) as [d r]; simpl in *.
  destruct (split_last_dot r) as [[a b]|] eqn:E; simpl.
  - destruct (split_last_dot_suffix _ _ _ E) as (x & -> & Hx). apply split_last_dot_app in E. rewrite <- A, <- E.
    rewrite app_assoc. apply extension_some; [exact Hx|].
    destruct a as [|c a]; simpl in E.
    { subst r. congruence. }
    exists c. split; [apply in_or_app; right; left; reflexivity|]. rewrite <- E in R. exact R.
  - apply split_last_dot_None in E. apply extension_none. intros a x H c I.
    rewrite <- A in H. clear A R Hs F.
    revert a H I. induction d as [|e d IH]; intros a H I; simpl in H.
    + exfalso. apply E. rewrite H. apply in_or_app; right; left; reflexivity.
    + destruct a as [|e' a]; [contradiction|]. injection H as <- H. destruct I as [<-|I]; [apply D; left; reflexivity|].
      apply (IH (fun c J => D c (or_intror J)) a H I).
Qed.
Lemma asked_iff w n : ~ In ("/"%char : ascii) n -> (asked w n = true <-> wants w n).
Proof.
  intros Hs. unfold asked, wants. destruct w as [| |l|s]; simpl.
  - split; [discriminate|tauto].
  - tauto.
  - destruct (in_dec str_eq_dec (snd (splitext n)) l) as [I|N].
    + split; [|reflexivity]. intros _. eexists; split; [apply extension_splitext; [exact Hs|reflexivity]|exact I].
    + split; [discriminate|]. intros (e & X & I). apply extension_splitext in X; [|exact Hs]. congruence.
  - rewrite is_infix_iff. split.
    + intros (a & b & E). exists (snd (splitext n)), a, b. split; [apply extension_splitext; [exact Hs|reflexivity]|exact E].
    + intros (e & a & b & X & E). apply extension_splitext in X; [|exact Hs]. subst e. exists a, b. exact E.
Qed.

Lemma text_char_iff c : text_char c = false <-> control_char c.
Proof.
  unfold text_char, control_char. assert (nat_of_ascii c < 256) by apply nat_ascii_bounded.
  set (n := nat_of_ascii c) in *. clearbody n. cbn [existsb].
  rewrite !orb_false_iff, !Nat.eqb_neq, andb_false_iff, Nat.leb_gt, negb_false_iff, Nat.eqb_eq. lia.
Qed.
Lemma is_binary_iff b : is_binary b = false <-> textual b.
Proof.
  unfold is_binary, textual.
  assert (G : forall i c, (i < 1024 /\ nth_error b i = Some c) <-> nth_error (firstn 1024 b) i = Some c).
  { intros i c. generalize 1024 as k. revert i. induction b as [|d b IH]; intros i k; [destruct k, i; simpl; intuition discriminate|].
    destruct k as [|k]; [destruct i; simpl; intuition (try lia; try discriminate)|]. destruct i as [|i]; simpl; [intuition lia|].
    rewrite <- IH. intuition lia. }
  destruct (filter (fun c => negb (text_char c)) (firstn 1024 b)) as [|c l] eqn:E.
  - split; [|reflexivity]. intros _ i c Hi Hn Hc. assert (I : In c (firstn 1024 b)) by (eapply nth_error_In; apply G; split; eassumption).
    assert (J : In c (filter (fun c => negb (text_char c)) (firstn 1024 b))) by (apply filter_In; split; [exact I|apply negb_true_iff, text_char_iff, Hc]).
    rewrite E in J; contradiction.
  - split; [discriminate|]. intros H. exfalso. assert (I : In c (c :: l)) by (left; reflexivity). rewrite <- E in I.
    apply filter_In in I as [I T]. apply In_nth_error in I as [i Hi]. apply G in Hi as [Hi Hn].
    apply (H i c Hi Hn). apply text_char_iff, negb_true_iff, T.
Qed.
Lemma json_file_iff n : path_suffix n = $".json" <-> json_file n.
Proof.
  unfold path_suffix, json_file. split.
  - destruct (split_last_dot n) as [[a b]|] eqn:E; [|discriminate]. apply split_last_dot_app in E.
    destruct a as [|c a]; [discriminate|]. destruct b as [|d [|e b]]; try discriminate. intros H. exists (c :: a). split; [discriminate|congruence].
  - intros (a & Ha & ->). assert (N : nodot ($"json")) by (intros H; simpl in H; intuition discriminate).
    pose proof (split_last_dot_app_dot a ($"json") N) as E. change (dot_c :: $"json") with ($".json") in E. rewrite E.
    destruct a; [congruence|reflexivity].
Qed.
Lemma hidden_iff n : hidden n = false <-> not_hidden n.
Proof.
  unfold hidden, not_hidden. destruct n as [|c n]; [split; [intros _ r H; discriminate|reflexivity]|].
  destruct (ascii_dec c dot_c) as [->|N]; [split; [discriminate|intros H; exfalso; apply (H n); reflexivity]|].
  split; [|reflexivity]. intros _ r [= -> _]. apply N; reflexivity.
Qed.

(** Sorting *)
Lemma str_leb_lex a b : str_leb a b = true -> lex_le a b.
Proof.
  revert b; induction a as [|c a IH]; intros b H; [left; exists b; reflexivity|].
  destruct b as [|d b]; [discriminate|]. simpl in H. destruct (ascii_dec c d) as [->|N].
  - destruct (IH b H) as [[r ->]|(p & c' & d' & ra & rb & -> & -> & L)]; [left; exists r; reflexivity|].
    right. exists (d :: p), c', d', ra, rb. auto.
  - apply Nat.ltb_lt in H. right. exists [], c, d, a, b. auto.
Qed.
Lemma str_leb_total a b : str_leb a b = false -> str_leb b a = true.
Proof.
  revert b; induction a as [|c a IH]; intros [|d b]; simpl; try discriminate; try reflexivity.
  destruct (ascii_dec c d) as [->|N]; [destruct (ascii_dec d d); [apply IH|congruence]|].
  destruct (ascii_dec d c); [congruence|]. rewrite Nat.ltb_ge, Nat.ltb_lt. intros L.
  assert (nat_of_ascii d <> nat_of_ascii c); [|lia]. intros E. apply N. rewrite <- (ascii_nat_embedding c), <- (ascii_nat_embedding d), E. reflexivity.
Qed.
Lemma str_leb_trans a b c : str_leb a b = true -> str_leb b c = true -> str_leb a c = true.
Proof.
  revert b c; induction a as [|x a IH]; intros [|y b] [|z c]; simpl; try discriminate; try reflexivity.
  destruct (ascii_dec x y) as [->|N]; destruct (ascii_dec y z) as [->|M].
  - destruct (ascii_dec z z); [|congruence]. apply IH.
  - destruct (ascii_dec y z); [congruence|]. tauto.
  - destruct (ascii_dec x z); [congruence|]. tauto.
  - rewrite !Nat.ltb_lt. intros A B. destruct (ascii_dec x z) as [->|]; [lia|]. apply Nat.ltb_lt; lia.
Qed.
Lemma key_leb_total a b : key_leb a b = false -> key_leb b a = true.
Proof. destruct a as [[|] a], b as [[|] b]; unfold key_leb; simpl; try discriminate; try reflexivity; apply str_leb_total. Qed.
Lemma key_leb_trans a b c : key_leb a b = true -> key_leb b c = true -> key_leb a c = true.
Proof. destruct a as [[|] a], b as [[|] b], c as [[|] c]; unfold key_leb; simpl; try discriminate; try reflexivity; apply str_leb_trans. Qed.
Section Sort.
Context {A : Type} (f : A -> key).
Definition in_order (l : list A) : Prop := forall u a v b w, l = u ++ a :: v ++ b :: w -> key_leb (f a) (f b) = true.
Lemma insert_perm a l : Permutation (insert f a l) (a :: l).
Proof.
  induction l as [|b l IH]; simpl; [reflexivity|]. destruct (key_leb (f a) (f b)); [reflexivity|].
  rewrite IH. apply perm_swap.
Qed.
Lemma sorted_perm l : Permutation (sorted f l) l.
Proof. induction l as [|a l IH]; simpl; [reflexivity|]. rewrite insert_perm. constructor; exact IH. Qed.
Lemma in_order_cons a l : in_order (a :: l) <-> (forall b, In b l -> key_leb (f a) (f b) = true) /\ in_order l.
Proof.
  split.
  - intros H. split.
    + intros b I. apply in_split in I as (v & w & ->). apply (H [] a v b w). reflexivity.
    + intros u x v y w ->. apply (H (a :: u) x v y w). reflexivity.
  - intros [H1 H2] u x v y w E. destruct u as [|z u]; simpl in E; injection E as -> E.
    + apply H1. rewrite E. apply in_or_app; right; left; reflexivity.
    + apply (H2 u x v y w E).
Qed.
Lemma insert_in_order a l : in_order l -> in_order (insert f a l).
Proof.
  induction l as [|b l IH]; simpl; intros H.
  - apply in_order_cons. split; [intros b []|]. intros [|] x v y w E; discriminate.
  - apply in_order_cons in H as [H1 H2]. destruct (key_leb (f a) (f b)) eqn:E.
    + apply in_order_cons. split; [|apply in_order_cons; split; assumption].
      intros c [<-|I]; [exact E|]. eapply key_leb_trans; [exact E|apply H1, I].
    + apply in_order_cons. split; [|apply IH, H2]. intros c I. apply (Permutation_in _ (insert_perm a l)) in I.
      destruct I as [<-|I]; [apply key_leb_total, E|apply H1, I].
Qed.
Lemma sorted_in_order l : in_order (sorted f l).
Proof. induction l as [|a l IH]; simpl; [intros [|] x v y w E; discriminate|apply insert_in_order, IH]. Qed.
Lemma filter_in_order g l : in_order l -> in_order (filter g l).
Proof.
  induction l as [|a l IH]; simpl; intros H; [exact H|]. apply in_order_cons in H as [H1 H2].
  destruct (g a); [|apply IH, H2]. apply in_order_cons. split; [|apply IH, H2].
  intros b I. apply filter_In in I as [I _]. apply H1, I.
Qed.
End Sort.

Section Sequence.
Context {A : Type}.
Lemma sequence_ok (rs : list (res A)) l : sequence rs = Ok l -> rs = map Ok l.
Proof.
  revert l; induction rs as [|r rs IH]; simpl; intros l H; [injection H as <-; reflexivity|].
  destruct r as [a|]; simpl in H; [|discriminate]. destruct (sequence rs) as [l'|]; simpl in H; [|discriminate].
  injection H as <-. simpl. f_equal. apply IH; reflexivity.
Qed.
Lemma sequence_exn (rs : list (res A)) e : sequence rs = Exn e -> In (Exn e) rs.
Proof.
  induction rs as [|r rs IH]; simpl; intros H; [discriminate|]. destruct r as [a|]; simpl in H; [|injection H as ->; left; reflexivity].
  destruct (sequence rs) as [l'|]; simpl in H; [discriminate|]. right. apply IH. exact H.
Qed.
End Sequence.

(** Every name on disk is a name: no slash in it. *)
Definition proper (t : tree) : Prop := forall q n u, located t q n u -> ~ In ("/"%char : ascii) n.
Lemma proper_entry es n u : proper (Dir es) -> In (n, u) es -> ~ In ("/"%char : ascii) n /\ proper u.
Proof.
  intros P I. split; [apply (P [] n u), located_here, I|]. intros q m v H. apply (P (n :: q) m v). eapply located_in; eassumption.
Qed.

Section Walk.
Variable decode : str -> option str.
Variable json_ok : str -> bool.
Notation walkd := (walk decode json_ok).

(** What is shown of the content of a file. *)
Definition displayed (w : wanted) (n b : str) (c : option panel) : Prop :=
  (wants w n /\ textual b /\ exists s, decode b = Some s /\
     ((json_file n /\ json_ok s = true /\ c = Some (Formatted s)) \/ (~ json_file n /\ c = Some (Plain s)))) \/
  (~ (wants w n /\ textual b) /\ c = None).
(** A file that stops the walk. *)
Definition stops (w : wanted) (n b : str) : Prop :=
  wants w n /\ textual b /\ (decode b = None \/ exists s, decode b = Some s /\ json_file n /\ json_ok s = false).

Definition file_res (w : wanted) (n b : str) : res (option panel) := if asked w n then walk_file decode json_ok n b else Ok None.
Lemma file_res_spec w n b : ~ In ("/"%char : ascii) n ->
  (forall c, file_res w n b = Ok c <-> displayed w n b c) /\
  (forall e, file_res w n b = Exn e <-> e = ValueError /\ stops w n b).
Proof.
  intros Hs. unfold file_res, displayed, stops, walk_file.
  pose proof (asked_iff w n Hs) as A. pose proof (is_binary_iff b) as B. pose proof (json_file_iff n) as J.
  destruct (asked w n).
  2:{ assert (Z : ~ wants w n) by (intros H; apply A in H; discriminate).
      split; [intros c|intros e]; split; [intros [= <-]; right; tauto|intros [(H & _)|[_ ->]]; tauto|discriminate|tauto]. }
  assert (W : wants w n) by (apply A; reflexivity).
  destruct (is_binary b).
  { assert (Z : ~ textual b) by (intros H; apply B in H; discriminate).
    split; [intros c|intros e]; split; [intros [= <-]; right; tauto|intros [(_ & H & _)|[_ ->]]; tauto|discriminate|tauto]. }
  assert (Tx : textual b) by (apply B; reflexivity).
  destruct (decode b) as [s|].
  2:{ split; [intros c|intros e]; split; [discriminate| |intros [= <-]; tauto|intros [-> _]; reflexivity].
      intros [(_ & _ & s & H & _)|[H _]]; [discriminate|tauto]. }
  destruct (str_eq_dec (path_suffix n) ($".json")) as [E|E].
  - assert (Jf : json_file n) by (apply J, E). destruct (json_ok s) eqn:K.
    + split; [intros c|intros e]; split.
      * intros [= <-]. left. split; [exact W|]. split; [exact Tx|]. exists s. tauto.
      * intros [(_ & _ & s' & [= <-] & [(_ & _ & ->)|[H _]])|[H _]]; tauto.
      * discriminate.
      * intros [_ (_ & _ & [H|(s' & [= <-] & _ & H)])]; congruence.
    + split; [intros c|intros e]; split.
      * discriminate.
      * intros [(_ & _ & s' & [= <-] & [(_ & H & _)|[H _]])|[H _]]; [congruence|tauto|tauto].
      * intros [= <-]. split; [reflexivity|]. split; [exact W|]. split; [exact Tx|]. right. exists s. tauto.
      * intros [-> _]; reflexivity.
  - assert (Jf : ~ json_file n) by (intros H; apply J in H; contradiction).
    split; [intros c|intros e]; split.
    + intros [= <-]. left. split; [exact W|]. split; [exact Tx|]. exists s. tauto.
    + intros [(_ & _ & s' & [= <-] & [(H & _)|[_ ->]])|[H _]]; tauto.
    + discriminate.
    + intros [_ (_ & _ & [H|(s' & [= <-] & H & _)])]; [discriminate|tauto].
Qed.

Definition entry (w : wanted) (h : bool) (e : str * tree) : res shown :=
  match snd e with
  | File b => do c <- file_res w (fst e) b; Ok (SFile (fst e) (length b) c)
  | Dir _ => do l <- walkd w h (snd e); Ok (SDir (fst e) l)
  end.
Definition item (w : wanted) (h : bool) (e : str * tree) := (fst e, (is_file (snd e), entry w h e)).
Definition sort_key (i : str * (bool * res shown)) : key := (fst (snd i), lower (fst i)).
Definition paths (w : wanted) (h : bool) (es : list (str * tree)) : list (str * (bool * res shown)) :=
  filter (fun i => h || negb (hidden (fst i))) (sorted sort_key (map (item w h) es)).
Lemma walk_dir w h es : walkd w h (Dir es) = sequence (map (fun i => snd (snd i)) (paths w h es)).
Proof. reflexivity. Qed.
Lemma visible_one h n : (h || negb (hidden n)) = true <-> visible h [n].
Proof.
  unfold visible. rewrite orb_true_iff, negb_true_iff, hidden_iff. simpl. split; (intros [H|H]; [left; exact H|right]).
  - intros m [<-|[]]; exact H.
  - apply H; left; reflexivity.
Qed.
Lemma visible_cons h n q : visible h (n :: q) <-> visible h [n] /\ visible h q.
Proof. unfold visible; simpl. intuition; subst; auto. Qed.
Lemma in_paths w h es i : In i (paths w h es) <-> exists n u, In (n, u) es /\ visible h [n] /\ i = item w h (n, u).
Proof.
  unfold paths. rewrite filter_In, visible_one. split.
  - intros [I V]. apply (Permutation_in _ (sorted_perm _ _)) in I. apply in_map_iff in I as ([n u] & <- & I). exists n, u. auto.
  - intros (n & u & I & V & ->). split; [|exact V]. apply (Permutation_in _ (Permutation_sym (sorted_perm _ _))). apply in_map, I.
Qed.

Lemma walk_in w h t l : walkd w h t = Ok l -> exists es, t = Dir es /\
  (forall s, In s l <-> exists n u, In (n, u) es /\ visible h [n] /\ entry w h (n, u) = Ok s) /\
  (forall n u, In (n, u) es -> visible h [n] -> exists s, entry w h (n, u) = Ok s).
Proof.
  destruct t as [b|es]; [discriminate|]. rewrite walk_dir. intros H. exists es. split; [reflexivity|].
  apply sequence_ok in H.
  assert (G : forall r, In r (map Ok l) <-> exists n u, In (n, u) es /\ visible h [n] /\ entry w h (n, u) = r).
  { intros r. rewrite <- H, in_map_iff. split.
    - intros (i & <- & I). apply in_paths in I as (n & u & I & V & ->). exists n, u. auto.
    - intros (n & u & I & V & <-). exists (item w h (n, u)). split; [reflexivity|]. apply in_paths. exists n, u. auto. }
  split.
  - intros s. rewrite <- G, in_map_iff. split; [intros I; exists s; auto|intros (s' & [= <-] & I); exact I].
  - intros n u I V. assert (J : In (entry w h (n, u)) (map Ok l)) by (apply G; exists n, u; auto).
    apply in_map_iff in J as (s & J & _). exists s. congruence.
Qed.

(** A walk that ends shows the visible directories and files, each where it is, nothing else; the files with their size
    and with their content if that was asked for and the first 1024 bytes are text. *)
Theorem C91_shows_exactly w h t l : proper t -> walkd w h t = Ok l ->
  (forall q n, (exists inside, shows l q (SDir n inside)) <-> visible h (q ++ [n]) /\ exists es, located t q n (Dir es)) /\
  (forall q n k c, shows l q (SFile n k c) <->
     visible h (q ++ [n]) /\ exists b, located t q n (File b) /\ k = length b /\ displayed w n b c).
Proof.
  intros P H.
  assert (G : forall q t l, proper t -> walkd w h t = Ok l -> forall s, shows l q s <->
    exists n u, visible h (q ++ [n]) /\ located t q n u /\ entry w h (n, u) = Ok s).
  { clear P H t l. induction q as [|m q IH]; intros t l P H s; destruct (walk_in _ _ _ _ H) as (es & -> & M & E).
    - split.
      + intros S. inversion S as [? ? I|]; subst. apply M in I as (n & u & I & V & X). exists n, u. repeat split; auto. constructor; exact I.
      + intros (n & u & V & L & X). inversion L; subst. constructor. apply M. exists n, u. auto.
    - split.
      + intros S. inversion S as [|? ? l' ? ? I S']; subst. apply M in I as (m' & u & I & V & X).
        destruct u as [b|es']; unfold entry, bind in X; cbn [fst snd] in X; [destruct (file_res w m' b); discriminate|].
        destruct (walkd w h (Dir es')) as [l1|] eqn:Wk; [|discriminate]. injection X as -> ->.
        destruct (proper_entry _ _ _ P I) as [_ P'].
        apply (IH _ _ P' Wk) in S' as (n & u & V' & L & X). exists n, u. repeat split; [apply (proj2 (visible_cons _ _ _)); split; assumption| |exact X].
        eapply located_in; eassumption.
      + intros (n & u & V & L & X). simpl in V. apply visible_cons in V as [V V']. inversion L as [|? ? v ? ? ? I L']; subst.
        destruct (E _ _ I V) as [s' X']. destruct v as [b|es']; [inversion L'|]. unfold entry, bind in X'; cbn [fst snd] in X'.
        destruct (walkd w h (Dir es')) as [l1|] eqn:Wk; [|discriminate]. injection X' as <-.
        destruct (proper_entry _ _ _ P I) as [_ P'].
        apply (shows_in _ _ l1); [apply M; exists m, (Dir es'); repeat split; auto; unfold entry; cbn [fst snd]; rewrite Wk; reflexivity|].
        apply (IH _ _ P' Wk). exists n, u. auto. }
  split.
  - intros q n. split.
    + intros [ins S]. apply (G q t l P H) in S as (n' & u & V & L & X). destruct u as [b|es]; unfold entry, bind in X; cbn [fst snd] in X.
      * destruct (file_res w n' b); discriminate.
      * destruct (walkd w h (Dir es)); [|discriminate]. injection X as -> _. split; [exact V|]. exists es; exact L.
    + intros [V [es L]].
      assert (X : exists l1, walkd w h (Dir es) = Ok l1).
      { clear G P. revert t l H L V. induction q as [|m q IH]; intros t l H L V; destruct (walk_in _ _ _ _ H) as (es0 & -> & M & E); simpl in V.
        - inversion L as [? ? ? I|]; subst. destruct (E _ _ I V) as [s X]. unfold entry, bind in X; cbn [fst snd] in X.
          destruct (walkd w h (Dir es)) as [l1|]; [eauto|discriminate].
        - apply visible_cons in V as [V V']. inversion L as [|? ? v ? ? ? I L']; subst. destruct v as [b|es']; [inversion L'|].
          destruct (E _ _ I V) as [s X]. unfold entry, bind in X; cbn [fst snd] in X.
          destruct (walkd w h (Dir es')) as [l1|] eqn:Wk; [|discriminate]. eapply IH; eassumption. }
      destruct X as [l1 X]. exists l1. apply (G q t l P H). exists n, (Dir es). repeat split; auto. unfold entry; cbn [fst snd]; rewrite X; reflexivity.
  - intros q n k c. rewrite (G q t l P H). split.
    + intros (n' & u & V & L & X). destruct u as [b|es]; unfold entry, bind in X; cbn [fst snd] in X.
      * destruct (file_res w n' b) as [c'|] eqn:F; [|discriminate]. injection X as -> <- <-. split; [exact V|]. exists b. repeat split; auto.
        apply file_res_spec; [apply (P q n _ L)|exact F].
      * destruct (walkd w h (Dir es)); discriminate.
    + intros [V (b & L & -> & D)]. exists n, (File b). repeat split; auto. unfold entry; cbn [fst snd].
      apply file_res_spec in D; [rewrite D; reflexivity|apply (P q n _ L)].
Qed.

(** In every directory the names shown are those of the visible entries, each as often as it is there. *)
Theorem C91_each_once w h t l q l' : walkd w h t = Ok l -> level l q l' ->
  exists es vis, directory t q es /\ Permutation (map name_of l') vis /\
    (exists hid, Permutation (map fst es) (vis ++ hid) /\ (forall n, In n vis -> visible h [n]) /\ (forall n, In n hid -> ~ visible h [n])).
Proof.
  intros H Lv. revert t H. induction Lv as [l|l m l1 q l' I _ IH]; intros t H.
  - destruct (walk_in _ _ _ _ H) as (es & -> & _). rewrite walk_dir in H. apply sequence_ok in H.
    exists es, (filter (fun n => h || negb (hidden n)) (map fst es)). split; [constructor|]. split.
    + assert (N : map name_of l = map fst (paths w h es)).
      { assert (X : forall i, In i (paths w h es) -> forall s, snd (snd i) = Ok s -> name_of s = fst i).
        { intros i J s. apply in_paths in J as (n & u & _ & _ & ->). unfold item, entry, bind; cbn [fst snd].
          destruct u as [b|es']; [destruct (file_res w n b)|destruct (walkd w h (Dir es'))]; try discriminate; intros [= <-]; reflexivity. }
        revert l H X. generalize (paths w h es). induction l as [|i r IH]; intros [|s l2] H X; simpl in *; try discriminate; [reflexivity|].
        injection H as H1 H2. f_equal; [apply (X i); auto|apply IH; auto]. }
      rewrite N. unfold paths.
      assert (F : forall (r : list (str * (bool * res shown))), map fst (filter (fun i => h || negb (hidden (fst i))) r) = filter (fun n => h || negb (hidden n)) (map fst r)).
      { induction r as [|i r IH]; simpl; [reflexivity|]. destruct (h || negb (hidden (fst i))); simpl; rewrite IH; reflexivity. }
      rewrite F. replace (map fst es) with (map fst (map (item w h) es)) by (rewrite map_map; reflexivity).
      assert (PF : forall (a b : list str) g, Permutation a b -> Permutation (filter g a) (filter g b)).
      { intros a b g Pm. induction Pm; simpl; repeat match goal with |- context [if ?c then _ else _] => destruct c end; auto.
        - apply perm_swap. - etransitivity; eassumption. }
      apply PF, Permutation_map, sorted_perm.
    + exists (filter (fun n => negb (h || negb (hidden n))) (map fst es)). split; [|split].
      * generalize (map fst es) as ns. intros ns. induction ns as [|n r IH]; simpl; [constructor|].
        destruct (h || negb (hidden n)); simpl; [constructor; exact IH|]. apply Permutation_cons_app, IH.
      * intros n J. apply filter_In in J as [_ J]. apply visible_one, J.
      * intros n J. apply filter_In in J as [_ J]. rewrite <- visible_one. intros Z. rewrite Z in J. discriminate.
  - destruct (walk_in _ _ _ _ H) as (es & -> & M & _). apply M in I as (m' & u & I & V & X).
    destruct u as [b|es']; unfold entry, bind in X; cbn [fst snd] in X; [destruct (file_res w m' b); discriminate|].
    destruct (walkd w h (Dir es')) as [l2|] eqn:Wk; [|discriminate]. injection X as -> ->.
    destruct (IH _ Wk) as (es1 & vis & D & R). exists es1, vis. split; [eapply directory_in; eassumption|exact R].
Qed.

(** In every directory directories come first, then files, both by their lowered names. *)
Theorem C91_order w h t l q l' : walkd w h t = Ok l -> level l q l' ->
  forall u s v s' z, l' = u ++ s :: v ++ s' :: z -> may_precede s s'.
Proof.
  intros H Lv. revert t H. induction Lv as [l|l m l1 q l' I _ IH]; intros t H.
  - destruct (walk_in _ _ _ _ H) as (es & -> & _). rewrite walk_dir in H. apply sequence_ok in H.
    intros u s v s' z ->. rewrite map_app in H; cbn [map] in H. rewrite map_app in H; cbn [map] in H.
    assert (O : in_order sort_key (paths w h es)) by (apply filter_in_order, sorted_in_order).
    assert (IP : forall i, In i (paths w h es) -> exists n u, i = item w h (n, u)).
    { intros i J. apply in_paths in J as (n & x & _ & _ & ->). eauto. }
    revert H O IP. generalize (paths w h es) as ps. intros ps H O IP.
    apply map_eq_app in H as (p1 & p2 & -> & _ & H). destruct p2 as [|i p2]; [discriminate|]. cbn [map] in H. injection H as Hi H.
    apply map_eq_app in H as (p3 & p4 & -> & _ & H). destruct p4 as [|j p4]; [discriminate|]. cbn [map] in H. injection H as Hj _.
    specialize (O p1 i p3 j p4 eq_refl).
    destruct (IP i) as (n & x & ->); [apply in_or_app; right; left; reflexivity|].
    destruct (IP j) as (n' & x' & ->); [apply in_or_app; right; right; apply in_or_app; right; left; reflexivity|].
    unfold item, entry, bind in Hi, Hj; cbn [fst snd] in Hi, Hj. unfold sort_key, item in O; cbn [fst snd] in O.
    destruct x as [b|es1]; [destruct (file_res w n b)|destruct (walkd w h (Dir es1))]; try discriminate; injection Hi as <-;
      (destruct x' as [b'|es2]; [destruct (file_res w n' b')|destruct (walkd w h (Dir es2))]; try discriminate; injection Hj as <-);
      unfold key_leb in O; simpl in O; simpl; try discriminate; try exact I; apply str_leb_lex, O.
  - destruct (walk_in _ _ _ _ H) as (es & -> & M & _). apply M in I as (m' & u & I & V & X).
    destruct u as [b|es']; unfold entry, bind in X; cbn [fst snd] in X; [destruct (file_res w m' b); discriminate|].
    destruct (walkd w h (Dir es')) as [l2|] eqn:Wk; [|discriminate]. injection X as -> ->. apply (IH _ Wk).
Qed.

Lemma tree_nested (Q : tree -> Prop) : (forall b, Q (File b)) -> (forall es, (forall n u, In (n, u) es -> Q u) -> Q (Dir es)) -> forall t, Q t.
Proof.
  intros HF HD. fix F 1. intros [b|es]; [apply HF|]. apply HD. induction es as [|[n u] es IH]; intros m v; [intros []|]. intros [E|I].
  - injection E as _ <-. apply F.
  - apply (IH m v I).
Qed.

(** The walk shows nothing at all exactly if some visible file is to be shown, looks like text and cannot be read as text
    or, being named as a JSON file, is not valid JSON. *)
Theorem C91_fails_iff w h es e : proper (Dir es) ->
  (walkd w h (Dir es) = Exn e <->
   e = ValueError /\ exists q n b, located (Dir es) q n (File b) /\ visible h (q ++ [n]) /\ stops w n b).
Proof.
  intros P. split.
  - assert (G : forall t, proper t -> forall es, t = Dir es -> walkd w h t = Exn e ->
      e = ValueError /\ exists q n b, located t q n (File b) /\ visible h (q ++ [n]) /\ stops w n b).
    { clear es P. intros t. induction t as [b|es IH] using tree_nested; intros P es' E H; [discriminate|].
      rewrite walk_dir in H. apply sequence_exn in H. apply in_map_iff in H as (i & Hi & I). apply in_paths in I as (n & u & I & V & ->).
      destruct (proper_entry _ _ _ P I) as [Pn Pu]. unfold item, entry, bind in Hi; cbn [fst snd] in Hi. destruct u as [b|es1].
      - destruct (file_res w n b) as [c|e'] eqn:F; [discriminate|]. injection Hi as ->. apply file_res_spec in F as [-> F]; [|exact Pn].
        split; [reflexivity|]. exists [], n, b. repeat split; try (constructor; exact I); try exact V; apply F.
      - destruct (walkd w h (Dir es1)) as [l|e'] eqn:F; [discriminate|]. injection Hi as ->.
        destruct (IH n (Dir es1) I Pu es1 eq_refl F) as [-> (q & m & b & L & V' & S)]. split; [reflexivity|].
        exists (n :: q), m, b. split; [eapply located_in; eassumption|]. split; [apply (proj2 (visible_cons _ _ _)); split; assumption|exact S]. }
    apply (G _ P es eq_refl).
  - intros [-> (q & n & b & L & V & S)].
    assert (X : walkd w h (Dir es) <> Exn ValueError -> exists l, walkd w h (Dir es) = Ok l).
    { intros Z. destruct (walkd w h (Dir es)) as [l|e'] eqn:E; [eauto|]. exfalso. rewrite walk_dir in E. clear L V S. revert E.
      assert (A : forall t e', walkd w h t = Exn e' -> e' = ValueError \/ exists b, t = File b).
      { clear. intros t. induction t as [b|es IH] using tree_nested; intros e' H; [eauto|]. left.
        rewrite walk_dir in H. apply sequence_exn in H. apply in_map_iff in H as (i & Hi & I). apply in_paths in I as (n & u & I & V & ->).
        unfold item, entry, bind in Hi; cbn [fst snd] in Hi. destruct u as [b|es1].
        - unfold file_res, walk_file in Hi. destruct (asked w n); [|discriminate]. destruct (is_binary b); [discriminate|].
          destruct (decode b) as [s|]; [|simpl in Hi; congruence]. destruct (str_eq_dec (path_suffix n) ($".json")); [|discriminate].
          destruct (json_ok s); simpl in Hi; congruence.
        - destruct (walkd w h (Dir es1)) as [l|e2] eqn:F; [discriminate|]. injection Hi as ->.
          destruct (IH n (Dir es1) I _ F) as [->|[b E]]; [reflexivity|discriminate]. }
      rewrite <- walk_dir. intros E. destruct (A _ _ E) as [->|[b' E']]; [apply Z; reflexivity|discriminate]. }
    destruct (walkd w h (Dir es)) as [l|e'] eqn:E.
    + exfalso. clear X. assert (Y : forall q t l, proper t -> walkd w h t = Ok l -> located t q n (File b) -> visible h (q ++ [n]) -> False).
      { clear E L V q l P es. induction q as [|m q IH]; intros t l P H L V; destruct (walk_in _ _ _ _ H) as (es & -> & M & Ent); simpl in V.
        - inversion L as [? ? ? I|]; subst. destruct (Ent _ _ I V) as [s X]. unfold entry, bind in X; cbn [fst snd] in X.
          assert (F : file_res w n b = Exn ValueError) by (apply file_res_spec; [apply (P [] n (File b)), L|auto]). rewrite F in X. discriminate.
        - apply visible_cons in V as [V V']. inversion L as [|? ? v ? ? ? I L']; subst. destruct v as [b'|es']; [inversion L'|].
          destruct (Ent _ _ I V) as [s X]. unfold entry, bind in X; cbn [fst snd] in X. destruct (proper_entry _ _ _ P I) as [_ P'].
          destruct (walkd w h (Dir es')) as [l1|] eqn:Wk; [|discriminate]. apply (IH _ _ P' Wk L' V'). }
      apply (Y q _ _ P E L V).
    + destruct e'; try reflexivity; exfalso; destruct X as [l X]; try discriminate; congruence.
Qed.

(** So one empty file named as a JSON file, as an interrupted save leaves it, hides everything from a walk that shows
    all contents or those of JSON files. *)
Theorem C91_empty_json_hides_all w h es q a : proper (Dir es) -> decode [] = Some [] -> json_ok [] = false ->
  (w = WAll \/ exists l, w = WList l /\ In ($".json") l) -> (exists c, In c a /\ c <> dotc) ->
  located (Dir es) q (a ++ $".json") (File []) -> visible h (q ++ [a ++ $".json"]) ->
  walkd w h (Dir es) = Exn ValueError.
Proof.
  intros P D J W A L V. apply C91_fails_iff; [exact P|]. split; [reflexivity|]. exists q, (a ++ $".json"), []. split; [exact L|]. split; [exact V|].
  split; [|split].
  - destruct W as [->|(l & -> & I)]; [exact Logic.I|]. exists ($".json"). split; [|exact I].
    apply (extension_some a ($"json")); [simpl; intuition discriminate|exact A].
  - intros [|i] c _ H; discriminate.
  - right. exists []. split; [exact D|]. split; [|exact J]. exists a. split; [|reflexivity]. destruct A as (c & I & _). intros ->; contradiction.
Qed.

(** A string in place of a list of extensions: the contents of files without extension are shown whatever the string is,
    and so are those whose extension is only part of it. *)
Theorem C91_string_asks_for_more s h t l q n b : proper t -> walkd (WStr s) h t = Ok l ->
  located t q n (File b) -> visible h (q ++ [n]) -> textual b ->
  (forall a x, n = a ++ dotc :: x -> forall c, In c a -> c = dotc) \/ (exists e x y, extension n e /\ s = x ++ e ++ y) ->
  exists p, shows l q (SFile n (length b) (Some p)).
Proof.
  intros P H L V Tx N. destruct (C91_shows_exactly _ _ _ _ P H) as [_ F].
  assert (W : wants (WStr s) n).
  { destruct N as [N|(e & x & y & X & ->)]; [exists [], [], s; split; [apply extension_none, N|reflexivity]|exists e, x, y; auto]. }
  assert (Y : file_res (WStr s) n b <> Exn ValueError).
  { intros Z. apply file_res_spec in Z as [_ Z]; [|apply (P q n _ L)]. destruct t as [bb|es]; [discriminate|].
    assert (E : walkd (WStr s) h (Dir es) = Exn ValueError); [|congruence]. apply C91_fails_iff; [exact P|]. split; [reflexivity|].
    exists q, n, b. auto. }
  destruct (file_res (WStr s) n b) as [c|e] eqn:E.
  - apply file_res_spec in E; [|apply (P q n _ L)]. assert (D := E).
    destruct D as [(_ & _ & v & _ & [(_ & _ & ->)|[_ ->]])|[D _]]; [| |tauto].
    + eexists. apply F. split; [exact V|]. exists b. repeat split; auto; exact E.
    + eexists. apply F. split; [exact V|]. exists b. repeat split; auto; exact E.
  - apply file_res_spec in E as [-> _]; [|apply (P q n _ L)]. congruence.
Qed.
End Walk.

(** ** Examples *)
Definition some_decode (b : str) : option str := Some b.
Definition some_json (s : str) : bool := if str_eq_dec s ($"{}") then true else false.
Definition some_dir : tree := Dir [
  ($"b.json", File ($"{}")); ($".cache", Dir [($"x.json", File [])]); ($"A.npy", File (ascii_of_nat 0 :: $"data"));
  ($"README", File ($"hello")); ($"sub", Dir [($"run.js", File ($"1")); ($"a.json", File ($"{}"))])].
Example some_walk : walk some_decode some_json (WList [$".json"]) false some_dir = Ok [
  SDir ($"sub") [SFile ($"a.json") 2 (Some (Formatted ($"{}"))); SFile ($"run.js") 1 None];
  SFile ($"A.npy") 5 None; SFile ($"b.json") 2 (Some (Formatted ($"{}"))); SFile ($"README") 5 None].
Proof. vm_compute. reflexivity. Qed.
Example some_walk_string : walk some_decode some_json (WStr ($".json")) false some_dir = Ok [
  SDir ($"sub") [SFile ($"a.json") 2 (Some (Formatted ($"{}"))); SFile ($"run.js") 1 (Some (Plain ($"1")))];
  SFile ($"A.npy") 5 None; SFile ($"b.json") 2 (Some (Formatted ($"{}"))); SFile ($"README") 5 (Some (Plain ($"hello")))].
Proof. vm_compute. reflexivity. Qed.
Lemma some_proper : proper some_dir.
Proof.
  intros q n u H.
  unfold some_dir in H.
  repeat match goal with
  | H : located (Dir _) _ _ _ |- _ => inversion H; clear H; subst
  | H : located (File _) _ _ _ |- _ => inversion H
  | H : In _ (_ :: _) |- _ => destruct H as [H|H]
  | H : In _ [] |- _ => contradiction
  | H : (_, _) = (_, _) |- _ => injection H as <- <-
  end; simpl; intuition discriminate.
Qed.
(** With the hidden files the empty one is met. *)
Example some_walk_hidden : walk some_decode some_json (WList [$".json"]) true some_dir = Exn ValueError.
Proof.
  apply (C91_empty_json_hides_all some_decode some_json (WList [$".json"]) true _ [$".cache"] ($"x")).
  - exact some_proper.
  - reflexivity.
  - reflexivity.
  - right. exists [$".json"]. split; [reflexivity|left; reflexivity].
  - exists "x"%char. split; [left; reflexivity|discriminate].
  - eapply located_in; [right; left; reflexivity|]. apply located_here. left; reflexivity.
  - left; reflexivity.
Qed.

Print Assumptions C91_shows_exactly.
Print Assumptions C91_each_once.
Print Assumptions C91_order.
Print Assumptions C91_fails_iff.
Print Assumptions C91_empty_json_hides_all.
Print Assumptions C91_string_asks_for_more.
