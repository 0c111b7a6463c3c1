(** C55: FileTarget. *)
From Coq Require Import List Ascii String Bool.
From Verif Require Import Base PosixModel StreamModel.
Import ListNotations.

(** ** Specification *)
(** Everything the current file holds once the stream is flushed. *)
Definition stream_text (cwd : str) (s : ftarget) : str :=
  match f_disk s (abspath cwd (f_base s)) with Some x => x | None => [] end ++ f_buf s.
(** The writes of a sequence of operations, in order. *)
Definition written (ops : list sop) : str :=
  List.concat (map (fun o => match o with SWrite x => x | _ => [] end) ops).
Definition run_ops (cwd : str) (ops : list sop) (s : ftarget) : ftarget := fold_left (ft_op cwd) ops s.

Lemma put_same cwd d p x : put_file cwd d p x (abspath cwd p) = x.
Proof. unfold put_file. destruct (str_eq_dec _ _); congruence. Qed.
Lemma put_other cwd d p x q : q <> abspath cwd p -> put_file cwd d p x q = d q.
Proof. unfold put_file. destruct (str_eq_dec _ _); congruence. Qed.
Lemma flush_text cwd s : f_disk (ft_flush cwd s) (abspath cwd (f_base s)) = Some (stream_text cwd s).
Proof. cbn. rewrite put_same. reflexivity. Qed.

(** ** C55 *)
(** Storing at another path: the new file holds what was there before, then everything the stream held; the old file
    is deleted if it was the temporary one, else it holds everything too; no other file changes. *)
Theorem C55_store : forall cwd s p, f_mode s = ModeA -> abspath cwd p <> abspath cwd (f_base s) ->
  let s' := ft_op cwd s (SStore p) in
  f_base s' = p /\ f_mode s' = ModeA /\
  f_disk s' (abspath cwd p) = Some (match f_disk s (abspath cwd p) with Some x => x | None => [] end ++ stream_text cwd s) /\ f_buf s' = [] /\
  f_disk s' (abspath cwd (f_base s)) = (if f_temp s then None else Some (stream_text cwd s)) /\
  (forall q, q <> abspath cwd p -> q <> abspath cwd (f_base s) -> f_disk s' q = f_disk s q).
Proof.
  intros cwd s p Hm Hp. cbn [ft_op]. unfold ft_store. destruct (str_eq_dec _ _) as [He|_]; [congruence|].
  cbn zeta. change (f_base (ft_flush cwd s)) with (f_base s). rewrite flush_text. change (f_temp (ft_flush cwd s)) with (f_temp s).
  cbn [f_base f_mode f_disk f_buf]. rewrite Hm. split; [reflexivity|]. split; [reflexivity|].
  assert (Hne : abspath cwd (f_base s) <> abspath cwd p) by congruence.
  assert (Hd : transfer cwd (f_disk (ft_flush cwd s)) (f_base s) p (abspath cwd p) =
    Some (match f_disk s (abspath cwd p) with Some x => x | None => [] end ++ stream_text cwd s)).
  { unfold transfer. rewrite put_same. unfold held. rewrite flush_text. cbn [ft_flush f_disk]. rewrite put_other by assumption. reflexivity. }
  assert (Ho : forall q, q <> abspath cwd p -> transfer cwd (f_disk (ft_flush cwd s)) (f_base s) p q = f_disk (ft_flush cwd s) q).
  { intros q Hq. unfold transfer. apply put_other. assumption. }
  unfold open_file. rewrite put_same. split; [|split; [reflexivity|split]].
  - f_equal. unfold held. destruct (f_temp s); [rewrite put_other by assumption|]; rewrite Hd; reflexivity.
  - rewrite put_other by assumption. destruct (f_temp s); [apply put_same|]. rewrite Ho by assumption. apply flush_text.
  - intros q H1 H2. rewrite put_other by assumption. destruct (f_temp s); [rewrite put_other by assumption|]; rewrite Ho by assumption; cbn; apply put_other; assumption.
Qed.
(** Every sequence of writes, flushes, stores and reopenings: everything written is there, in order, at the end of
    the current file, behind what the destinations held. *)
Theorem C55_append_keeps_everything : forall cwd ops s, f_mode s = ModeA ->
  exists before, stream_text cwd (run_ops cwd ops s) = before ++ stream_text cwd s ++ written ops /\ f_mode (run_ops cwd ops s) = ModeA.
Proof.
  intros cwd ops. induction ops as [|o ops IH]; intros s Hm.
  - exists []. cbn. rewrite app_nil_r. auto.
  - unfold run_ops. cbn [fold_left]. fold (run_ops cwd ops (ft_op cwd s o)).
    assert (H1 : exists b, stream_text cwd (ft_op cwd s o) = b ++ stream_text cwd s ++ written [o] /\ f_mode (ft_op cwd s o) = ModeA).
    { destruct o as [x| |p|].
      - exists []. cbn. unfold stream_text, ft_write, written. cbn. rewrite app_nil_r, app_assoc. auto.
      - exists []. cbn [ft_op]. unfold stream_text at 1. cbn [ft_flush f_base f_buf].
        pose proof (flush_text cwd s) as Hf. cbn [ft_flush f_disk f_base] in Hf |- *. rewrite Hf. cbn. rewrite !app_nil_r. auto.
      - destruct (str_eq_dec (abspath cwd p) (abspath cwd (f_base s))) as [He|He].
        + exists []. cbn [ft_op]. unfold ft_store. destruct (str_eq_dec _ _) as [_|Hx]; [|congruence]. cbn. rewrite app_nil_r. auto.
        + destruct (C55_store cwd s p Hm He) as (H1 & H2 & H3 & H4 & _).
          eexists. split; [|exact H2]. unfold stream_text at 1. rewrite H1, H3, H4. cbn [written map List.concat]. rewrite !app_nil_r. reflexivity.
      - exists []. cbn [ft_op]. unfold ft_reopen, ft_init. cbn [f_mode]. split; [|reflexivity]. unfold stream_text at 1. cbn [f_disk f_base f_buf].
        unfold open_file. rewrite put_same. unfold held. change (f_base (ft_flush cwd s)) with (f_base s). rewrite flush_text. cbn. rewrite !app_nil_r. reflexivity. }
    destruct H1 as (b & H1 & H2). destruct (IH _ H2) as (b2 & H3 & H4). exists (b2 ++ b). split; [|exact H4].
    rewrite H3, H1. unfold written. cbn [map List.concat]. rewrite app_nil_r, <- !app_assoc. reflexivity.
Qed.
(** In mode 'w' storing at another path discards everything: the new file is empty, and if the old one was the
    temporary one it is gone. *)
Theorem C55_mode_w_discards : forall cwd s p, f_mode s = ModeW -> abspath cwd p <> abspath cwd (f_base s) ->
  let s' := ft_op cwd s (SStore p) in
  f_base s' = p /\ f_disk s' (abspath cwd p) = Some [] /\ stream_text cwd s' = [] /\
  (f_temp s = true -> f_disk s' (abspath cwd (f_base s)) = None).
Proof.
  intros cwd s p Hm Hp. cbn [ft_op]. unfold ft_store. destruct (str_eq_dec _ _) as [He|_]; [congruence|].
  cbn zeta. change (f_base (ft_flush cwd s)) with (f_base s). rewrite flush_text. change (f_temp (ft_flush cwd s)) with (f_temp s).
  unfold stream_text at 1. cbn [f_base f_mode f_disk f_buf]. rewrite Hm. unfold open_file. rewrite put_same. repeat (split; [reflexivity|]).
  intros Ht. rewrite Ht. rewrite put_other by congruence. apply put_same.
Qed.
Example C55_example :
  let cwd := $"/proj" in
  let disk p := if str_eq_dec p ($"/proj/b.txt") then Some ($"old|") else None in
  let s m := ft_init cwd disk None ($"/tmp/x/log.txt") m in
  let ops := [SWrite ($"one "); SStore ($"a.txt"); SWrite ($"two "); SReopen; SWrite ($"three "); SStore ($"./a.txt"); SStore ($"b.txt")] in
  f_mode (s ModeA) = ModeA /\ abspath cwd ($"a.txt") <> abspath cwd (f_base (s ModeA)) /\
  stream_text cwd (run_ops cwd ops (s ModeA)) = $"old|one two three " /\
  stream_text cwd (run_ops cwd [SWrite ($"one"); SStore ($"a.txt")] (s ModeW)) = [] /\
  f_disk (run_ops cwd [SWrite ($"one"); SStore ($"a.txt")] (s ModeW)) ($"/tmp/x/log.txt") = None.
Proof. repeat split; try (vm_compute; reflexivity). vm_compute. discriminate. Qed.

Print Assumptions C55_store.
Print Assumptions C55_append_keeps_everything.
Print Assumptions C55_mode_w_discards.
