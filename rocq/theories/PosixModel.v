(** Model of the CPython [posixpath] functions that /repo/dman/core/path.py relies on.
    The functions themselves live in the Python standard library; the comment on each
    definition names the library function and the lines in /repo where it is called. *)
From Coq Require Import List Ascii String Bool Arith Lia.
From Verif Require Import Base.
Import ListNotations.

Definition sep : ascii := "/".
Definition dot_c : ascii := ".".
Definition dot : str := $".".
Definition dotdot : str := $"..".

(** [str.split('/')], used by normpath, relpath and commonpath
    (called at dman/core/path.py:172-173, 308-310, 335). *)
Fixpoint split_sep (s : str) : list str :=
  match s with
  | [] => [[]]
  | c :: r =>
      if ascii_dec c sep then [] :: split_sep r
      else match split_sep r with
           | h :: t => (c :: h) :: t
           | [] => [[c]]
           end
  end.

(** ['/'.join(l)], used by normpath and commonpath (dman/core/path.py:172-173, 308-310). *)
Fixpoint join_sep (l : list str) : str :=
  match l with
  | [] => []
  | [x] => x
  | x :: r => x ++ sep :: join_sep r
  end.

(** [path.startswith('/')] = [os.path.isabs] (dman/core/path.py:309, 335). *)
Definition isabs (p : str) : bool :=
  match p with c :: _ => if ascii_dec c sep then true else false | [] => false end.

(** [path.endswith('/')] as used in [os.path.join]. (dman/core/path.py:167, 319) *)
Fixpoint ends_sep (p : str) : bool :=
  match p with
  | [] => false
  | [c] => if ascii_dec c sep then true else false
  | _ :: r => ends_sep r
  end.

(** [os.path.join(a, b)] (dman/core/path.py:167, 230, 319, 416, 517-518). *)
Definition join2 (a b : str) : str :=
  if isabs b then b
  else match a with
       | [] => b
       | _ => if ends_sep a then a ++ b else a ++ sep :: b
       end.

(** [os.path.join(a, *bs)] (dman/core/path.py:518, and inside relpath:335). *)
Definition joinN (a : str) (bs : list str) : str := fold_left join2 bs a.

(** Position just after the last separator: ([p[:i]], [p[i:]]) with [i = p.rfind('/')+1]
    as in [os.path.split] and [os.path.splitext] (dman/core/path.py:137, 148, 437). *)
Fixpoint split_last_sep (p : str) : str * str :=
  match p with
  | [] => ([], [])
  | c :: r =>
      match split_last_sep r with
      | ([], t) => if ascii_dec c sep then ([c], t) else ([], c :: t)
      | (h, t) => (c :: h, t)
      end
  end.

(** [s.rstrip('/')] (inside [os.path.split]; dman/core/path.py:148, 437). *)
Fixpoint rstrip_sep (s : str) : str :=
  match s with
  | [] => []
  | c :: r =>
      match rstrip_sep r with
      | [] => if ascii_dec c sep then [] else [c]
      | r' => c :: r'
      end
  end.

Definition all_sep (s : str) : bool := forallb (fun c => if ascii_dec c sep then true else false) s.

(** [os.path.split(p)] (dman/core/path.py:148, 437). *)
Definition path_split (p : str) : str * str :=
  let (h, t) := split_last_sep p in
  (if all_sep h then h else rstrip_sep h, t).

(** Leading dots of a base name, and the rest (inside [os.path.splitext]; dman/core/path.py:137). *)
Fixpoint lead_dots (s : str) : str * str :=
  match s with
  | c :: r => if ascii_dec c dot_c then let (d, t) := lead_dots r in (c :: d, t) else ([], s)
  | [] => ([], [])
  end.

(** Split before the last dot, if any (inside [os.path.splitext]; dman/core/path.py:137). *)
Fixpoint split_last_dot (s : str) : option (str * str) :=
  match s with
  | [] => None
  | c :: r =>
      match split_last_dot r with
      | Some (a, b) => Some (c :: a, b)
      | None => if ascii_dec c dot_c then Some ([], c :: r) else None
      end
  end.

(** [os.path.splitext(p)] (dman/core/path.py:137). *)
Definition splitext (p : str) : str * str :=
  let (h, t) := split_last_sep p in
  let (d, r) := lead_dots t in
  match split_last_dot r with
  | Some (a, b) => (h ++ d ++ a, b)
  | None => (p, [])
  end.

(** Number of leading slashes kept by [os.path.normpath] (dman/core/path.py:173). *)
Definition initial_slashes (p : str) : nat :=
  match p with
  | a :: b :: c :: _ =>
      if ascii_dec a sep then
        if ascii_dec b sep then if ascii_dec c sep then 1 else 2 else 1
      else 0
  | [a; b] => if ascii_dec a sep then if ascii_dec b sep then 2 else 1 else 0
  | [a] => if ascii_dec a sep then 1 else 0
  | [] => 0
  end.

(** One iteration of the component loop of [os.path.normpath]; the components
    collected so far are kept in reverse (dman/core/path.py:173). *)
Definition norm_step (ini : nat) (acc : list str) (c : str) : list str :=
  if str_eq_dec c [] then acc
  else if str_eq_dec c dot then acc
  else if str_eq_dec c dotdot then
         match acc with
         | [] => if ini =? 0 then [c] else []
         | top :: rest => if str_eq_dec top dotdot then c :: acc else rest
         end
       else c :: acc.

(** [os.path.normpath(p)] (dman/core/path.py:173, 301, and inside abspath). *)
Definition normpath (p : str) : str :=
  match p with
  | [] => dot
  | _ =>
      let ini := initial_slashes p in
      let comps := rev (fold_left (norm_step ini) (split_sep p) []) in
      match repeat sep ini ++ join_sep comps with
      | [] => dot
      | q => q
      end
  end.

(** [os.path.abspath(p)] with working directory [cwd] (dman/core/path.py:309, 335). *)
Definition abspath (cwd p : str) : str :=
  normpath (if isabs p then p else join2 cwd p).

(** Non-empty components ([[x for x in s.split('/') if x]], inside relpath; dman/core/path.py:335). *)
Definition nonempty (s : str) : bool := if str_eq_dec s [] then false else true.
Definition comps_ne (p : str) : list str := filter nonempty (split_sep p).

(** Longest common prefix of two component lists ([commonprefix] / the loop of [commonpath];
    dman/core/path.py:308-310, 335). *)
Fixpoint lcp (a b : list str) : list str :=
  match a, b with
  | x :: a', y :: b' => if str_eq_dec x y then x :: lcp a' b' else []
  | _, _ => []
  end.

(** [os.path.relpath(path, start)] (dman/core/path.py:335). *)
Definition relpath (cwd path start : str) : res str :=
  match path with
  | [] => Exn ValueError
  | _ =>
      let sl := comps_ne (abspath cwd match start with [] => dot | _ => start end) in
      let pl := comps_ne (abspath cwd path) in
      let i := List.length (lcp sl pl) in
      match repeat dotdot (List.length sl - i) ++ skipn i pl with
      | [] => Ok dot
      | x :: r => Ok (joinN x r)
      end
  end.

(** Components seen by [os.path.commonpath]: empty and '.' ones are dropped
    (dman/core/path.py:308-310). *)
Definition not_curdir (s : str) : bool := if str_eq_dec s dot then false else nonempty s.
Definition comps_cp (p : str) : list str := filter not_curdir (split_sep p).

(** [os.path.commonpath([a])] (dman/core/path.py:308). *)
Definition commonpath1 (a : str) : res str :=
  Ok ((if isabs a then [sep] else []) ++ join_sep (comps_cp a)).

(** [os.path.commonpath([a, b])]; [min]/[max] of the two lists have the same longest
    common prefix in either order, so the sorting is left out (dman/core/path.py:308-310). *)
Definition commonpath2 (a b : str) : res str :=
  if Bool.eqb (isabs a) (isabs b) then
    Ok ((if isabs a then [sep] else []) ++ join_sep (lcp (comps_cp a) (comps_cp b)))
  else Exn ValueError.
