(** C107: a storable whose data cannot be written destroys the file that was there. *)
From Coq Require Import Ascii String List Bool Arith Lia.
From Verif Require Import Base PosixModel FsModel FsProof DumpModel.
Import ListNotations.

(** Spec: reading a text from left to right, inside or outside of quotation marks, with the number of brackets that are open. *)
Inductive place := Out | Quoted | Escaped.
Definition read_char (p : place) (n : nat) (c : ascii) : option (place * nat) :=
  match p with
  | Escaped => Some (Quoted, n)
  | Quoted => if ascii_dec c quote then Some (Out, n) else if ascii_dec c backslash then Some (Escaped, n) else Some (Quoted, n)
  | Out => if ascii_dec c quote then Some (Quoted, n)
           else if ascii_dec c "[" then Some (Out, S n) else if ascii_dec c "{" then Some (Out, S n)
           else if ascii_dec c "]" then match n with 0 => None | S m => Some (Out, m) end
           else if ascii_dec c "}" then match n with 0 => None | S m => Some (Out, m) end
           else Some (Out, n)
  end.
Fixpoint read_text (p : place) (n : nat) (s : str) : option (place * nat) :=
  match s with
  | [] => Some (p, n)
  | c :: r => match read_char p n c with Some (p', n') => read_text p' n' r | None => None end
  end.
(** All quotation marks and brackets are closed, as in every JSON text. *)
Definition closed (s : str) : Prop := read_text Out 0 s = Some (Out, 0).
(** The text of a number, a boolean or null: nothing special in it. *)
Definition plain_text (s : str) : Prop := s <> [] /\ forall c, In c s -> ~ In c [quote; "["%char; "{"%char; "]"%char; "}"%char].
Inductive proper : dval -> Prop :=
| PNum s : plain_text s -> proper (DNum s)
| PStr s : proper (DStr s)
| PList l : (forall x, In x l -> proper x) -> proper (DList l)
| PDict d : (forall k x, In (k, x) d -> proper x) -> proper (DDict d).
(** A key that json refuses somewhere in it. *)
Inductive refused : dval -> Prop :=
| RKey d x : In (KRefused, x) d -> refused (DDict d)
| RItem d k x : In (k, x) d -> refused x -> refused (DDict d)
| RList l x : In x l -> refused x -> refused (DList l).

Lemma read_app p n s t : read_text p n (s ++ t) = match read_text p n s with Some (p', n') => read_text p' n' t | None => None end.
Proof. revert p n. induction s as [|c s IH]; intros p n; cbn; [reflexivity|]. destruct (read_char p n c) as [[p' n']|]; [apply IH | reflexivity]. Qed.
Lemma read_plain n s : (forall c, In c s -> ~ In c [quote; "["%char; "{"%char; "]"%char; "}"%char]) -> read_text Out n s = Some (Out, n).
Proof.
  induction s as [|c s IH]; intros H; [reflexivity|]. cbn [read_text read_char].
  assert (N : ~ In c [quote; "["%char; "{"%char; "]"%char; "}"%char]) by (apply H; left; reflexivity).
  repeat (destruct (ascii_dec c _) as [->|]; [exfalso; apply N; cbn; tauto|]). apply IH. intros d Hd. apply H. right. exact Hd.
Qed.
Lemma read_escape n c : read_text Quoted n (escape c) = Some (Quoted, n).
Proof. destruct c as [[] [] [] [] [] [] [] []]; reflexivity. Qed.
Lemma read_encode n s : read_text Out n (encode s) = Some (Out, n).
Proof.
  unfold encode. cbn [read_text read_char]. destruct (ascii_dec quote quote); [|congruence].
  induction s as [|c s IH]; [reflexivity|]. cbn [flat_map]. rewrite <- app_assoc, read_app, read_escape. exact IH.
Qed.
Lemma read_line n k : read_text Out n (new_line k) = Some (Out, n).
Proof.
  apply read_plain. intros c [<-|H]; [vm_compute; intuition discriminate|]. apply repeat_spec in H as ->. vm_compute. intuition discriminate.
Qed.
Fixpoint size (v : dval) : nat :=
  match v with
  | DNum _ | DStr _ => 1
  | DList l => S (list_sum (map size l))
  | DDict d => S (list_sum (map (fun kv => size (snd kv)) d))
  end.
Lemma size_in l x : In x l -> size x <= list_sum (map size l).
Proof. unfold list_sum. induction l as [|y l IH]; intros H; [destruct H|]. destruct H as [H|H]; cbn; [subst; lia | specialize (IH H); lia]. Qed.
Lemma size_in_dict (d : list (dkey * dval)) k x : In (k, x) d -> size x <= list_sum (map (fun kv => size (snd kv)) d).
Proof. unfold list_sum. induction d as [|y d IH]; intros H; [destruct H|]. destruct H as [H|H]; cbn; [subst; cbn; lia | specialize (IH H); lia]. Qed.

(** What a value writes: its text, closed; or a beginning in which a bracket stays open. *)
Definition good (v : dval) : Prop := forall level n, let '(s, ok) := write_text level v in
  (ok = true /\ ~ refused v /\ read_text Out n s = Some (Out, n) /\ s <> [])
  \/ (ok = false /\ refused v /\ exists m, n < m /\ read_text Out n s = Some (Out, m)).
Lemma comma_line n k s : read_text Out n ((","%char :: new_line k) ++ s) = read_text Out n s.
Proof. cbn [app]. change (","%char :: new_line k ++ s) with ([","%char] ++ (new_line k ++ s)). rewrite read_app. cbn [read_text read_char].
  repeat (destruct (ascii_dec _ _); [discriminate|]). rewrite read_app, read_line. reflexivity. Qed.
Lemma read_colon n s : read_text Out n ($": " ++ s) = read_text Out n s.
Proof. reflexivity. Qed.

Lemma read_list n s : read_text Out n ("["%char :: s) = read_text Out (S n) s.
Proof. reflexivity. Qed.
Lemma read_dict n s : read_text Out n ("{"%char :: s) = read_text Out (S n) s.
Proof. reflexivity. Qed.
Lemma all_good : forall b v, size v <= b -> proper v -> good v.
Proof.
  induction b as [|b IH]; intros v Hs Hp; [destruct v; cbn in Hs; lia|].
  destruct v as [s|s|l|d]; intros level n.
  - cbn. left. inversion Hp as [? [H1 H2]| | |]; subst. split; [reflexivity|]. split; [intros R; inversion R|]. split; [apply read_plain; exact H2 | exact H1].
  - cbn [write_text]. left. split; [reflexivity|]. split; [intros R; inversion R|]. split; [apply read_encode | discriminate].
  - destruct l as [|x0 l0] eqn:El.
    { cbn. left. split; [reflexivity|]. split; [intros R; inversion R; contradiction|]. split; [reflexivity | discriminate]. }
    rewrite <- El in *. assert (Hl : l <> []) by (rewrite El; discriminate). clear El x0 l0.
    assert (G : forall x, In x l -> good x).
    { intros x Hx. apply IH; [pose proof (size_in l x Hx); cbn in Hs; lia | inversion Hp; auto]. }
    set (go := fix go (first : bool) (l : list dval) : str * bool :=
           match l with
           | [] => ([], true)
           | x :: r =>
               let pre := if first then [] else ","%char :: new_line (S level) in
               let '(s, ok) := write_text (S level) x in
               if ok then let '(s2, ok2) := go false r in (pre ++ s ++ s2, ok2) else (pre ++ s, false)
           end).
    assert (L : forall l first, (forall x, In x l -> good x) -> let '(s, ok) := go first l in
        (ok = true /\ (forall x, In x l -> ~ refused x) /\ forall k, read_text Out k s = Some (Out, k))
        \/ (ok = false /\ (exists x, In x l /\ refused x) /\ forall k, exists m, k <= m /\ read_text Out k s = Some (Out, m))).
    { clear. induction l as [|x l IHl]; intros first G; cbn [go].
      - left. split; [reflexivity|]. split; [intros x [] | intros k; reflexivity].
      - pose proof (G x (or_introl eq_refl) (S level)) as Gx. destruct (write_text (S level) x) as [s ok]. 
        assert (P : forall k t, read_text Out k ((if first then [] else ","%char :: new_line (S level)) ++ t) = read_text Out k t).
        { intros k t. destruct first; [reflexivity | apply comma_line]. }
        destruct ok.
        + specialize (IHl false (fun y Hy => G y (or_intror Hy))). destruct (go false l) as [s2 ok2].
          assert (Hx : ~ refused x) by (destruct (Gx 0) as [(_ & R & _)|(X & _)]; [exact R | discriminate]).
          assert (Hr : forall k, read_text Out k s = Some (Out, k)) by (intros k; destruct (Gx k) as [(_ & _ & R & _)|(X & _)]; [exact R | discriminate]).
          destruct IHl as [(-> & H1 & H2)|(-> & (y & Y1 & Y2) & H2)].
          * left. split; [reflexivity|]. split; [intros y [<-|Hy]; [exact Hx | apply H1; exact Hy]|]. intros k. rewrite P, read_app, Hr. apply H2.
          * right. split; [reflexivity|]. split; [exists y; split; [right; exact Y1 | exact Y2]|]. intros k. destruct (H2 k) as (m & M1 & M2). exists m.
            split; [exact M1|]. rewrite P, read_app, Hr. exact M2.
        + right. split; [reflexivity|]. split; [exists x; split; [left; reflexivity|]; destruct (Gx 0) as [(X & _)|(_ & R & _)]; [discriminate | exact R]|].
          intros k. destruct (Gx k) as [(X & _)|(_ & _ & m & M1 & M2)]; [discriminate|]. exists m. split; [lia|]. rewrite P. exact M2. }
    specialize (L l true G).
    assert (W : write_text level (DList l) = let '(s, ok) := go true l in
        if ok then ("["%char :: new_line (S level) ++ s ++ new_line level ++ $"]", true) else ("["%char :: new_line (S level) ++ s, false)).
    { destruct l; [congruence | reflexivity]. }
    rewrite W. destruct (go true l) as [s ok]. destruct L as [(-> & H1 & H2)|(-> & (x & X1 & X2) & H2)].
    + left. split; [reflexivity|]. split; [intros R; inversion R as [| |l' x Hx Rx]; subst; exact (H1 x Hx Rx)|]. split; [|discriminate].
      rewrite read_list.
      rewrite read_app, read_line, read_app, H2, read_app, read_line. reflexivity.
    + right. split; [reflexivity|]. split; [exact (RList l x X1 X2)|]. destruct (H2 (S n)) as (m & M1 & M2). exists m. split; [lia|].
      rewrite read_list.
      rewrite read_app, read_line. exact M2.
  - destruct d as [|x0 d0] eqn:El.
    { cbn. left. split; [reflexivity|]. split; [intros R; inversion R; contradiction|]. split; [reflexivity | discriminate]. }
    rewrite <- El in *. assert (Hl : d <> []) by (rewrite El; discriminate). clear El x0 d0.
    assert (G : forall k x, In (k, x) d -> good x).
    { intros k x Hx. apply IH; [pose proof (size_in_dict d k x Hx); cbn in Hs; lia | inversion Hp; eauto]. }
    set (go := fix go (first : bool) (d : list (dkey * dval)) : str * bool :=
           match d with
           | [] => ([], true)
           | (KRefused, _) :: _ => ([], false)
           | (KText k, x) :: r =>
               let pre := (if first then [] else ","%char :: new_line (S level)) ++ encode k ++ $": " in
               let '(s, ok) := write_text (S level) x in
               if ok then let '(s2, ok2) := go false r in (pre ++ s ++ s2, ok2) else (pre ++ s, false)
           end).
    assert (L : forall d first, (forall k x, In (k, x) d -> good x) -> let '(s, ok) := go first d in
        (ok = true /\ ~ refused (DDict d) /\ forall k, read_text Out k s = Some (Out, k))
        \/ (ok = false /\ refused (DDict d) /\ forall k, exists m, k <= m /\ read_text Out k s = Some (Out, m))).
    { clear. induction d as [|[[key|] x] d IHd]; intros first G; cbn [go].
      - left. split; [reflexivity|]. split; [intros R; inversion R; contradiction | intros k; reflexivity].
      - pose proof (G _ x (or_introl eq_refl) (S level)) as Gx. destruct (write_text (S level) x) as [s ok].
        assert (P : forall k t, read_text Out k (((if first then [] else ","%char :: new_line (S level)) ++ encode key ++ $": ") ++ t) = read_text Out k t).
        { intros k t. rewrite <- !app_assoc. transitivity (read_text Out k (encode key ++ $": " ++ t)).
          - destruct first; [reflexivity | apply comma_line].
          - rewrite read_app, read_encode. apply read_colon. }
        destruct ok.
        + specialize (IHd false (fun k y Hy => G k y (or_intror Hy))). destruct (go false d) as [s2 ok2].
          assert (Hx : ~ refused x) by (destruct (Gx 0) as [(_ & R & _)|(X & _)]; [exact R | discriminate]).
          assert (Hr : forall k, read_text Out k s = Some (Out, k)) by (intros k; destruct (Gx k) as [(_ & _ & R & _)|(X & _)]; [exact R | discriminate]).
          destruct IHd as [(-> & H1 & H2)|(-> & H1 & H2)].
          * left. split; [reflexivity|]. split.
            -- intros R. inversion R as [d' y Hy|d' k y Hy Ry|]; subst.
               ++ destruct Hy as [Hy|Hy]; [discriminate|]. apply H1. exact (RKey d y Hy).
               ++ destruct Hy as [Hy|Hy]; [inversion Hy; subst; contradiction|]. apply H1. exact (RItem d k y Hy Ry).
            -- intros k. rewrite P, read_app, Hr. apply H2.
          * right. split; [reflexivity|]. split.
            -- inversion H1 as [d' y Hy|d' k y Hy Ry|]; subst; [apply (RKey _ y); right; exact Hy | apply (RItem _ k y); [right; exact Hy | exact Ry]].
            -- intros k. destruct (H2 k) as (m & M1 & M2). exists m. split; [exact M1|]. rewrite P, read_app, Hr. exact M2.
        + right. split; [reflexivity|]. split.
          * destruct (Gx 0) as [(X & _)|(_ & R & _)]; [discriminate|]. apply (RItem _ (KText key) x); [left; reflexivity | exact R].
          * intros k. destruct (Gx k) as [(X & _)|(_ & _ & m & M1 & M2)]; [discriminate|]. exists m. split; [lia|]. rewrite P. exact M2.
      - right. split; [reflexivity|]. split; [apply (RKey _ x); left; reflexivity|]. intros k. exists k. split; [lia | reflexivity]. }
    specialize (L d true G).
    assert (W : write_text level (DDict d) = let '(s, ok) := go true d in
        if ok then ("{"%char :: new_line (S level) ++ s ++ new_line level ++ $"}", true) else ("{"%char :: new_line (S level) ++ s, false)).
    { destruct d; [congruence | reflexivity]. }
    rewrite W. destruct (go true d) as [s ok]. destruct L as [(-> & H1 & H2)|(-> & H1 & H2)].
    + left. split; [reflexivity|]. split; [exact H1|]. split; [|discriminate].
      rewrite read_dict.
      rewrite read_app, read_line, read_app, H2, read_app, read_line. reflexivity.
    + right. split; [reflexivity|]. split; [exact H1|]. destruct (H2 (S n)) as (m & M1 & M2). exists m. split; [lia|].
      rewrite read_dict.
      rewrite read_app, read_line. exact M2.
Qed.

(** The text of a value is closed and not empty; writing fails exactly if a key is refused, and then a bracket is open. *)
Theorem C107_written : forall v level, proper v -> ~ refused v ->
  snd (write_text level v) = true /\ closed (fst (write_text level v)) /\ fst (write_text level v) <> [].
Proof.
  intros v level Hp Hr. pose proof (all_good (size v) v (le_n _) Hp level 0) as G. destruct (write_text level v) as [s ok]. cbn.
  destruct G as [(-> & _ & R & N)|(_ & R & _)]; [auto | contradiction].
Qed.
Theorem C107_cut_off : forall v level, proper v -> refused v ->
  snd (write_text level v) = false /\ exists m, read_text Out 0 (fst (write_text level v)) = Some (Out, S m).
Proof.
  intros v level Hp Hr. pose proof (all_good (size v) v (le_n _) Hp level 0) as G. destruct (write_text level v) as [s ok]. cbn.
  destruct G as [(_ & R & _)|(-> & _ & m & M1 & M2)]; [contradiction|]. split; [reflexivity|]. destruct m as [|m]; [lia|]. exists m. exact M2.
Qed.
(** A write that fails after the file was opened has destroyed what was in it: what is left is the text of no value, and all
    other files are as before. *)
Theorem C107_old_contents_lost : forall fs l data e fs' old, file_at fs l = Some old -> l <> [] ->
  (forall v, data = Ok v -> proper v) -> write_json fs l data = (Exn e, fs') ->
  exists s, file_at fs' l = Some (Text s) /\ (forall v, proper v -> ~ refused v -> s <> fst (write_text 0 v))
    /\ (forall q, q <> l -> file_at fs' q = file_at fs q).
Proof.
  intros fs l data e fs' old Hold Hl Hp H. unfold write_json in H.
  assert (W : forall f c o, file_at f l = Some o -> exists f', write_file f l c = Ok f').
  { intros f c o Hf. destruct (exists_last Hl) as (d & x & ->). apply write_file_ok.
    - unfold file_at in Hf. unfold is_dir. rewrite lookup_app in Hf. destruct (lookup f d) as [[c0|es]|]; [discriminate | reflexivity | discriminate].
    - unfold is_dir. unfold file_at in Hf. destruct (lookup f (d ++ [x])) as [[c0|es]|]; [reflexivity | discriminate | discriminate]. }
  destruct (W fs (Text []) old Hold) as [fs1 E1]. rewrite E1 in H. pose proof (write_file_lookup _ _ _ _ E1) as L1.
  assert (F1 : file_at fs1 l = Some (Text [])) by (rewrite L1; destruct (loc_eq_dec l l); congruence).
  destruct data as [v|e0].
  - destruct (write_text 0 v) as [s ok] eqn:Ew. destruct (W fs1 (Text s) _ F1) as [fs2 E2]. rewrite E2 in H. pose proof (write_file_lookup _ _ _ _ E2) as L2.
    destruct ok; [discriminate|]. inversion H; subst. exists s. split; [rewrite L2; destruct (loc_eq_dec l l); congruence|]. split.
    + intros v' Hp' Hr' ->. pose proof (all_good (size v) v (le_n _) (Hp v eq_refl) 0 0) as G. rewrite Ew in G.
      destruct G as [(X & _)|(_ & _ & m & M1 & M2)]; [discriminate|]. destruct (C107_written v' 0 Hp' Hr') as (_ & C & _). unfold closed in C.
      rewrite C in M2. inversion M2. lia.
    + intros q Hq. rewrite L2. destruct (loc_eq_dec q l); [contradiction|]. rewrite L1. destruct (loc_eq_dec q l); [contradiction | reflexivity].
  - inversion H; subst. exists []. split; [exact F1|]. split.
    + intros v' Hp' Hr' E. destruct (C107_written v' 0 Hp' Hr') as (_ & _ & N). congruence.
    + intros q Hq. rewrite L1. destruct (loc_eq_dec q l); [contradiction | reflexivity].
Qed.
(** It fails exactly if the data cannot be made or a key is refused; otherwise the file holds the text of the data. *)
Theorem C107_fails_iff : forall fs l data old, file_at fs l = Some old -> l <> [] -> (forall v, data = Ok v -> proper v) ->
  (fst (write_json fs l data) = Ok tt <-> exists v, data = Ok v /\ ~ refused v)
  /\ forall v, data = Ok v -> ~ refused v -> file_at (snd (write_json fs l data)) l = Some (Text (fst (write_text 0 v))).
Proof.
  intros fs l data old Hold Hl Hp. unfold write_json.
  assert (W : forall f c o, file_at f l = Some o -> exists f', write_file f l c = Ok f').
  { intros f c o Hf. destruct (exists_last Hl) as (d & x & ->). apply write_file_ok.
    - unfold file_at in Hf. unfold is_dir. rewrite lookup_app in Hf. destruct (lookup f d) as [[c0|es]|]; [discriminate | reflexivity | discriminate].
    - unfold is_dir. unfold file_at in Hf. destruct (lookup f (d ++ [x])) as [[c0|es]|]; [reflexivity | discriminate | discriminate]. }
  destruct (W fs (Text []) old Hold) as [fs1 E1]. rewrite E1. pose proof (write_file_lookup _ _ _ _ E1) as L1.
  assert (F1 : file_at fs1 l = Some (Text [])) by (rewrite L1; destruct (loc_eq_dec l l); congruence).
  destruct data as [v|e0].
  - pose proof (all_good (size v) v (le_n _) (Hp v eq_refl) 0 0) as G. destruct (write_text 0 v) as [s ok] eqn:Ew.
    destruct (W fs1 (Text s) _ F1) as [fs2 E2]. rewrite E2. pose proof (write_file_lookup _ _ _ _ E2) as L2. cbn [fst snd].
    destruct G as [(-> & R & _)|(-> & R & _)].
    + split; [split; [intros _; exists v; auto | reflexivity]|]. intros v' X _. injection X as <-. rewrite Ew, L2. destruct (loc_eq_dec l l); [reflexivity | congruence].
    + split; [split; [discriminate | intros (v' & X & N); injection X as <-; contradiction]|]. intros v' X N. injection X as <-. contradiction.
  - split; [split; [discriminate | intros (v & X & _); discriminate] | intros v X; discriminate].
Qed.

Example C107_ex :
  let fs := Dir [($"a.json", File (Text ($"{}"))); ($"b", File (Text ($"b")))] in
  let v := DDict [(KText ($"x"), DNum ($"1")); (KText ($"y"), DDict [(KRefused, DNum ($"2"))])] in
  proper v /\ refused v /\ file_at fs [$"a.json"] = Some (Text ($"{}"))
  /\ fst (write_json fs [$"a.json"] (Ok v)) = Exn TypeError
  /\ file_at (snd (write_json fs [$"a.json"] (Ok v))) [$"a.json"]
     = Some (Text ($"{" ++ new_line 1 ++ [quote] ++ $"x" ++ [quote] ++ $": 1," ++ new_line 1 ++ [quote] ++ $"y" ++ [quote] ++ $": {" ++ new_line 2))
  /\ ~ refused (DDict [(KText ($"x"), DNum ($"1"))])
  /\ fst (write_text 0 (DDict [(KText ($"x"), DNum ($"1"))])) = $"{" ++ new_line 1 ++ [quote] ++ $"x" ++ [quote] ++ $": 1" ++ new_line 0 ++ $"}".
Proof.
  cbv zeta. split; [|split].
  - assert (N : forall c, plain_text [c] \/ In c [quote; "["%char; "{"%char; "]"%char; "}"%char]).
    { intros c. destruct (in_dec ascii_dec c [quote; "["%char; "{"%char; "]"%char; "}"%char]) as [I|I]; [right; exact I | left].
      split; [discriminate|]. intros d [<-|[]]. exact I. }
    assert (P1 : proper (DNum ($"1"))) by (constructor; destruct (N "1"%char) as [X|X]; [exact X | vm_compute in X; intuition discriminate]).
    assert (P2 : proper (DNum ($"2"))) by (constructor; destruct (N "2"%char) as [X|X]; [exact X | vm_compute in X; intuition discriminate]).
    constructor. intros k x [H|[H|[]]]; inversion H; subst; [exact P1|]. constructor. intros k x [K|[]]. inversion K; subst. exact P2.
  - eapply RItem; [right; left; reflexivity|]. eapply RKey. left. reflexivity.
  - split; [reflexivity|]. split; [reflexivity|]. split; [reflexivity|]. split; [|reflexivity].
    intros R. inversion R as [d y Hy|d k y Hy Ry|]; subst; destruct Hy as [Hy|[]]; inversion Hy; subst. inversion Ry.
Qed.

Print Assumptions C107_written.
Print Assumptions C107_cut_off.
Print Assumptions C107_old_contents_lost.
Print Assumptions C107_fails_iff.
