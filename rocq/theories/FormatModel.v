(** Model of how messages of the logger are laid out: [Logger.pack] (log.py:364-408) and [IndentedFormatter.format] (51-86),
    with the parts of the standard library they use ([textwrap.indent], [logging.Formatter]). *)
From Coq Require Import Ascii String List Bool Arith.
From Verif Require Import Base.
Import ListNotations.

Definition nl : ascii := ascii_of_nat 10.
Definition cr : ascii := ascii_of_nat 13.
Definition sp : ascii := " "%char.
(** Python, for Latin-1: what ends a line for [str.splitlines]; what [str.strip] removes. *)
Definition is_break (c : ascii) : bool := existsb (fun n => nat_of_ascii c =? n) [10; 11; 12; 13; 28; 29; 30; 133].
Definition is_space (c : ascii) : bool := existsb (fun n => nat_of_ascii c =? n) [9; 10; 11; 12; 13; 28; 29; 30; 31; 32; 133; 160].
Definition blank (s : str) : bool := forallb is_space s.
(** [s.splitlines(True)], with the current line. *)
Fixpoint lines_keep (cur s : str) : list str :=
  match s with
  | [] => match cur with [] => [] | _ => [cur] end
  | c :: r =>
      if is_break c then
        match r with
        | d :: r' => if (nat_of_ascii c =? 13) && (nat_of_ascii d =? 10) then (cur ++ [c; d]) :: lines_keep [] r' else (cur ++ [c]) :: lines_keep [] r
        | [] => [cur ++ [c]]
        end
      else lines_keep (cur ++ [c]) r
  end.
(** [textwrap.indent]. *)
Definition indent_line (p l : str) : str := if blank l then l else p ++ l.
Definition indent (p s : str) : str := concat (map (indent_line p) (lines_keep [] s)).
(** [s.split('\n')] and ['\n'.join(l)]. *)
Fixpoint split_nl (cur s : str) : list str :=
  match s with
  | [] => [cur]
  | c :: r => if nat_of_ascii c =? 10 then cur :: split_nl [] r else split_nl (cur ++ [c]) r
  end.
Fixpoint join_nl (l : list str) : str :=
  match l with [] => [] | [x] => x | x :: r => x ++ nl :: join_nl r end.

(** A format: literals and fields. Simplifications: no widths, no percent signs in literals; all fields exist. *)
Inductive field := FIndent | FLabel | FMessage | FOther (n : nat).
Inductive piece := Lit (s : str) | Fld (f : field).
(** A record: [label] and [indent] are what [pack] puts there; the text of the exception is empty without one. *)
Record record := mkRecord { r_label : str; r_indent : str; r_message : str; r_exc : str; r_other : nat -> str }.
Definition render_piece (r : record) (p : piece) : str :=
  match p with
  | Lit s => s
  | Fld FIndent => r_indent r | Fld FLabel => r_label r | Fld FMessage => r_message r | Fld (FOther n) => r_other r n
  end.
Definition render (r : record) (l : list piece) : str := concat (map (render_piece r) l).
(** [logging.Formatter.format]: the text of the exception on a line of its own. *)
Definition base_format (r : record) (l : list piece) : str :=
  let s := render r l in
  match r_exc r with
  | [] => s
  | e => (if nat_of_ascii (last s sp) =? 10 then s else s ++ [nl]) ++ e
  end.
Definition is_field (p : piece) : bool := match p with Fld _ => true | Lit _ => false end.
Definition is_message (p : piece) : bool := match p with Fld FMessage => true | _ => false end.
(** 51-63 [_format_inner]; making a [logging.Formatter] of a format without a field raises. *)
Definition format_inner (r : record) (l : list piece) : res str :=
  match concat (map (fun p => match p with Lit s => s | Fld _ => [sp] end) l) with
  | [] => Ok []
  | _ => if existsb is_message l then Ok (base_format r l)
         else if existsb is_field l then Ok (render r l) else Exn ValueError
  end.
(** 72: splitting the format at [%(indent)s]. *)
Fixpoint split_indent (cur l : list piece) : list (list piece) :=
  match l with
  | [] => [cur]
  | Fld FIndent :: r => cur :: split_indent [] r
  | p :: r => split_indent (cur ++ [p]) r
  end.
(** 65-86 *)
Definition format (fmt : list piece) (r : record) : res str :=
  match split_indent [] fmt, r_indent r with
  | [a; b], _ :: _ =>
      do prefix <- format_inner r a;
      do indented <- format_inner r b;
      match split_nl [] indented with
      | [] => Exn IndexError
      | first :: rest =>
          let s := prefix ++ indent (r_indent r) first in
          Ok (match rest with
              | [] => s
              | _ => s ++ nl :: indent (repeat sp (List.length prefix) ++ r_indent r) (join_nl rest)
              end)
      end
  | _, _ => Ok (base_format r fmt)
  end.

(** 371-375 [format_stack]: the names of the owners that are not None. *)
Definition format_stack (stack : list (option str)) : str :=
  removelast (concat (map (fun o => match o with Some s => s ++ ["."%char] | None => [] end) stack)).
(** 377-408 [pack]: label and indentation of a message; [info] is whether messages of level INFO are shown. *)
Definition pack (info : bool) (stack : list (option str)) (label : option str) : str * str :=
  let lab :=
    if info || match stack with [] => true | _ => false end
    then match label with None => [] | Some l => $"[" ++ l ++ $"]: " end
    else $"[@" ++ format_stack stack ++ match label with None => [] | Some l => $" | " ++ l end ++ $"]: " in
  let ind := if info && (0 <? List.length stack) then concat (repeat ($"  ") (List.length stack)) ++ $" " else [] in
  (lab, ind).
