(** plotting.py:92-135 [SVGFigure._generate_tex]: the LaTeX text made from what Inkscape wrote.
    Simplifications: lines are given without the line feed that ends them, and every line has one; Inkscape itself is not modelled, only whether there is a file and
    what it holds; which files are written and removed is left to [SvgModel]. *)
From Coq Require Import Ascii String List Bool Arith.
From Verif Require Import Base.
Import ListNotations.

Definition ceq (a b : ascii) : bool := if ascii_dec a b then true else false.

(** [s.startswith(p)], giving the rest. *)
Fixpoint strip_prefix (p s : str) : option str :=
  match p, s with
  | [], _ => Some s
  | a :: p', c :: s' => if ceq a c then strip_prefix p' s' else None
  | _ :: _, [] => None
  end.

(** [p in s] (plotting.py:111-112). *)
Fixpoint contains (p s : str) : bool :=
  match strip_prefix p s with
  | Some _ => true
  | None => match s with [] => false | _ :: r => contains p r end
  end.

(** [next(i for i, e in enumerate(content) if p in e)] (plotting.py:111-112); [None] is StopIteration. *)
Fixpoint first_with (p : str) (lines : list str) : option nat :=
  match lines with
  | [] => None
  | x :: r => if contains p x then Some 0 else option_map S (first_with p r)
  end.

Definition is_blank_char (c : ascii) : bool := ceq c " " || ceq c (ascii_of_nat 9).
Definition is_space_char (c : ascii) : bool :=
  let n := nat_of_ascii c in ((9 <=? n) && (n <=? 13)) || ((28 <=? n) && (n <=? 32)) || (n =? 133) || (n =? 160).

(** The blanks at the start of a line. *)
Fixpoint leading (s : str) : str :=
  match s with c :: r => if is_blank_char c then c :: leading r else [] | [] => [] end.

Fixpoint common (a b : str) : str :=
  match a, b with c :: a', d :: b' => if ceq c d then c :: common a' b' else [] | _, _ => [] end.

(** [textwrap.dedent] on the lines of a text (plotting.py:117): lines of blanks become empty, and what the blanks at the start of all others have in common is removed. *)
Definition margin (lines : list str) : str :=
  match filter (fun s => negb (forallb is_blank_char s)) lines with
  | [] => []
  | x :: r => fold_left (fun m s => common m (leading s)) r (leading x)
  end.
Definition dedent (lines : list str) : list str :=
  map (fun s => if forallb is_blank_char s then [] else skipn (List.length (margin lines)) s) lines.

(** [textwrap.indent(text, prefix=' '*2)] (plotting.py:125): lines of white space are left alone. *)
Definition indent (lines : list str) : list str :=
  map (fun s => if forallb is_space_char s then s else $"  " ++ s) lines.

(** plotting.py:119-124: what is added to the commands. *)
Definition font_lines : list str := [$"\ifx\svgfont\undefined%"; $"\global\let\svgfont\footnotesize"; $"\fi%    "].

(** plotting.py:114-126. *)
Definition commands (middle : list str) : list str := indent (dedent middle ++ font_lines).

(** The first group of the pattern (plotting.py:128): the text and the rest. *)
Definition opening (s : str) : option (str * str) :=
  match strip_prefix ($"\begin{tabular}[t]{") s with
  | Some (c :: r) => match strip_prefix ($"}") r with
                     | Some r' => Some ($"\begin{tabular}[t]{" ++ c :: $"}", r')
                     | None => None
                     end
  | _ => None
  end.

(** The second and third group (plotting.py:128): as little as possible up to the closing command. *)
Fixpoint up_to_end (s : str) : option (str * str) :=
  match strip_prefix ($"\end{tabular}") s with
  | Some r => Some ([], r)
  | None => match s with
            | [] => None
            | c :: r => match up_to_end r with Some (b, a) => Some (c :: b, a) | None => None end
            end
  end.

(** [pattern.sub(replace, line)] (plotting.py:128-131), from left to right; [n] is at least the length of the line. *)
Fixpoint sub (n : nat) (s : str) : str :=
  match n, s with
  | S n', c :: r =>
      match opening s with
      | Some (o, rest) => match up_to_end rest with
                          | Some (body, after) => o ++ $"\svgfont{}" ++ body ++ $"\end{tabular}" ++ sub n' after
                          | None => c :: sub n' r
                          end
      | None => c :: sub n' r
      end
  | _, _ => []
  end.
Definition sub_line (s : str) : str := sub (List.length s) s.

(** plotting.py:105-134: the lines of the file [base.tex], from those of [base.pdf_tex] if it exists.  StopIteration of [next] is a [UserError] here. *)
Definition generate_tex (pdf_tex : option (list str)) : res (list str) :=
  match pdf_tex with
  | None => Exn RuntimeError
  | Some content =>
      match first_with ($"makeatletter") content, first_with ($"makeatother") content with
      | Some i1, Some i2 =>
          let pre := firstn (i1 + 1) content in
          let post := skipn i2 content in
          let middle := skipn (i1 + 1) (firstn i2 content) in
          Ok (pre ++ commands middle ++ map sub_line post)
      | _, _ => Exn (UserError ($"StopIteration"))
      end
  end.
