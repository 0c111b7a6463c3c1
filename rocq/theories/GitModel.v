(** How git reads the [.gitignore] that dman writes (path.py:221-244).
    dman's side is [PathModel.gitignore]; this file is git's side, from gitignore(5) and git's dir.c and wildmatch.c.
    Simplifications: only one [.gitignore] is looked at (none in other directories, no global one); a trailing slash has no special meaning (dman writes
    no such line); [**] is two stars; classes such as [[:alpha:]] are sets of their characters; nothing is tracked yet. *)
From Coq Require Import Ascii String List Bool Arith.
From Verif Require Import Base PosixModel.
Import ListNotations.

Definition ceq (a b : ascii) : bool := if ascii_dec a b then true else false.

(** git's dir.c, add_patterns_from_buffer: a line ends at a line feed; a carriage return before it is not part of it.
    What follows the last line feed is a line too (path.py:244 writes no line feed at the end). *)
Definition no_return (cur : str) : str := match cur with x :: y => if ceq x (ascii_of_nat 13) then y else cur | [] => [] end.
Fixpoint git_lines_acc (cur : str) (s : str) : list str :=
  match s with
  | [] => [rev (no_return cur)]
  | c :: r => if ceq c (ascii_of_nat 10)
              then rev (no_return cur) :: git_lines_acc [] r
              else git_lines_acc (c :: cur) r
  end.
Definition git_lines (s : str) : list str := git_lines_acc [] s.

(** git's trim_trailing_spaces: spaces at the end are dropped, unless a backslash precedes. *)
Fixpoint trim_acc (spaces s : str) : str :=
  match s with
  | [] => []
  | c :: r => if ceq c " " then trim_acc (spaces ++ [c]) r
              else if ceq c "\" then match r with
                                     | [] => spaces ++ [c]
                                     | d :: r' => spaces ++ c :: d :: trim_acc [] r'
                                     end
              else spaces ++ c :: trim_acc [] r
  end.
Definition trim (s : str) : str := trim_acc [] s.

(** The parts of a pattern; [Bad]: a bracket that is not closed or a backslash at the end, which match nothing. *)
Inductive tok :=
| Lit (c : ascii)
| One
| Star
| Class (negated : bool) (members : str)
| Bad.

Inductive mode :=
| Plain
| Escape
| ClassOpen
| ClassFirst (negated : bool)
| ClassIn (negated : bool) (members : str)
| ClassEscape (negated : bool) (members : str).

(** git's wildmatch.c, dowild: how a pattern is read. *)
Fixpoint tokens (m : mode) (p : str) : list tok :=
  match p with
  | [] => match m with Plain => [] | _ => [Bad] end
  | c :: r =>
      match m with
      | Plain => if ceq c "\" then tokens Escape r
                 else if ceq c "*" then Star :: tokens Plain r
                 else if ceq c "?" then One :: tokens Plain r
                 else if ceq c "[" then tokens ClassOpen r
                 else Lit c :: tokens Plain r
      | Escape => Lit c :: tokens Plain r
      | ClassOpen => if ceq c "!" || ceq c "^" then tokens (ClassFirst true) r
                     else if ceq c "\" then tokens (ClassEscape false []) r
                     else tokens (ClassIn false [c]) r
      | ClassFirst n => if ceq c "\" then tokens (ClassEscape n []) r else tokens (ClassIn n [c]) r
      | ClassIn n l => if ceq c "]" then Class n (rev l) :: tokens Plain r
                       else if ceq c "\" then tokens (ClassEscape n l) r
                       else tokens (ClassIn n (c :: l)) r
      | ClassEscape n l => tokens (ClassIn n (c :: l)) r
      end
  end.

(** The members of a bracket, with ranges. *)
Fixpoint in_class (l : str) (c : ascii) : bool :=
  match l with
  | [] => false
  | a :: r => match r with
              | d :: b :: r' => if ceq d "-" then ((code a <=? code c) && (code c <=? code b)) || in_class r' c
                                else ceq a c || in_class r c
              | _ => ceq a c || in_class r c
              end
  end.

(** git's wildmatch.c with WM_PATHNAME: no wildcard matches a slash. *)
Fixpoint wild (p : list tok) (t : str) : bool :=
  match p with
  | [] => match t with [] => true | _ => false end
  | Lit a :: r => match t with c :: t' => ceq a c && wild r t' | [] => false end
  | One :: r => match t with c :: t' => negb (ceq c sep) && wild r t' | [] => false end
  | Class n l :: r => match t with c :: t' => negb (ceq c sep) && xorb n (in_class l c) && wild r t' | [] => false end
  | Star :: r => (fix go (t : str) : bool :=
                    wild r t || match t with c :: t' => negb (ceq c sep) && go t' | [] => false end) t
  | Bad :: _ => false
  end.

(** A line as git understands it: negated or not, with a slash or not, and the parts. *)
Record rule := mk_rule { r_negated : bool; r_anchored : bool; r_tokens : list tok }.

(** git's parse_path_pattern. *)
Definition read_line (line : str) : option rule :=
  match line with
  | [] => None
  | c :: _ =>
      if ceq c "#" then None
      else
        let s := trim line in
        let (neg, s) := match s with d :: r => if ceq d "!" then (true, r) else (false, s) | [] => (false, []) end in
        let anchored := existsb (fun d => ceq d sep) s in
        Some (mk_rule neg anchored (tokens Plain (match s with d :: r => if ceq d sep then r else s | [] => [] end)))
  end.

(** git's dir.c, match_basename and match_pathname, for the path with components [q] below the directory of the file. *)
Definition applies (r : rule) (q : list str) : bool :=
  if r_anchored r then wild (r_tokens r) (join_sep q) else wild (r_tokens r) (last q []).

(** git's last_matching_pattern: the last line that applies decides. *)
Definition verdict (lines : list str) (q : list str) : bool :=
  fold_left (fun b line => match read_line line with
                           | Some r => if applies r q then negb (r_negated r) else b
                           | None => b
                           end) lines false.

(** A path is ignored if it, or a directory on the way to it, is. *)
Fixpoint ignored_from (lines : list str) (done rest : list str) : bool :=
  match rest with
  | [] => false
  | x :: r => verdict lines (done ++ [x]) || ignored_from lines (done ++ [x]) r
  end.
Definition git_ignores (text : str) (path : list str) : bool := ignored_from (git_lines text) [] path.
