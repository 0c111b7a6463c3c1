(** errors.py:8-79: [Frame], [Stack], [Trace] and their text form.

    Simplifications: line numbers are natural numbers; the patterns are matched by hand-written matchers that try the
    alternatives in the order of Python's [re] ('.' is any character but the line break). *)
From Coq Require Import List Ascii String Bool NArith.
From Verif Require Import Base PathModel.
Import ListNotations.

Record frame := mkFrame { fr_file : str; fr_no : N; fr_name : str; fr_line : str }.
(** errors.py:34-39. *)
Record xstack := mkStack { x_type : str; x_value : str; x_cause : bool; x_frames : list frame }.

Definition nl : ascii := ascii_of_nat 10.

(** Remove a fixed text from the front. *)
Fixpoint strip (p s : str) : option str :=
  match p, s with
  | [], _ => Some s
  | c :: p, d :: s => if ascii_dec c d then strip p s else None
  | _ :: _, [] => None
  end.
(** [.*] followed by the rest of the pattern: the longest text first. *)
Fixpoint greedy {A} (k : str -> option A) (s : str) : option (str * A) :=
  match s with
  | [] => match k [] with Some a => Some ([], a) | None => None end
  | c :: r =>
      match (if ascii_dec c nl then None else greedy k r) with
      | Some (p, a) => Some (c :: p, a)
      | None => match k s with Some a => Some ([], a) | None => None end
      end
  end.
(** The first match found at any position ([re.findall(...)[0]]). *)
Fixpoint search {A} (k : str -> option A) (s : str) : option A :=
  match k s with
  | Some a => Some a
  | None => match s with [] => None | _ :: r => search k r end
  end.

(** errors.py:19-20 [Frame.__str__]. *)
Definition frame_str (f : frame) : str :=
  $"File " ++ fr_file f ++ $", line " ++ str_of_N (fr_no f) ++ $", in " ++ fr_name f ++ $": " ++ fr_line f.
(** errors.py:27: the pattern; [take_digits] is the longest run of digits, shorter ones cannot be followed by a comma. *)
Definition after_file (s : str) : option (str * str) :=
  match strip ($", line ") s with
  | None => None
  | Some s1 =>
      let (ds, s2) := take_digits s1 in
      match strip ($", in ") s2 with
      | None => None
      | Some s3 => match greedy (strip ($": ")) s3 with Some (name, _) => Some (ds, name) | None => None end
      end
  end.
Definition frame_at (s : str) : option (str * (str * str)) :=
  match strip ($"File ") s with None => None | Some s1 => greedy after_file s1 end.
(** errors.py:25-29 [Frame.__deserialize__], 15-17 [__post_init__]: [int('')] fails. *)
Definition de_frame (s : str) : res frame :=
  match search frame_at s with
  | None => Exn ValueError
  | Some (file, (ds, name)) =>
      match ds with [] => Exn ValueError | _ => Ok (mkFrame file (int_of_digits ds) name []) end
  end.

(** errors.py:41-46 [Stack.__serialize__]: the text, [is_cause], the frames. *)
Record sstack := mkSStack { ss_exc : str; ss_cause : bool; ss_frames : list str }.
Definition ser_stack (s : xstack) : sstack :=
  mkSStack (x_type s ++ $"(" ++ x_value s ++ $")") (x_cause s) (map frame_str (x_frames s)).
(** errors.py:54-55: the pattern. *)
Definition exc_at (s : str) : option (str * str) :=
  match greedy (fun r => match strip ($"(") r with
                         | None => None
                         | Some r1 => match greedy (strip ($")")) r1 with Some (v, _) => Some v | None => None end
                         end) s with
  | Some (t, v) => Some (t, v)
  | None => None
  end.
Fixpoint de_frames (l : list str) : res (list frame) :=
  match l with
  | [] => Ok []
  | s :: r => do f <- de_frame s; do fs <- de_frames r; Ok (f :: fs)
  end.
(** errors.py:51-58 [Stack.__deserialize__]. *)
Definition de_stack (s : sstack) : res xstack :=
  match search exc_at (ss_exc s) with
  | None => Exn ValueError
  | Some (t, v) => do fs <- de_frames (ss_frames s); Ok (mkStack t v (ss_cause s) fs)
  end.
