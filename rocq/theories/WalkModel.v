(** Model of [tui.walk_directory]: what is shown of a directory. *)
From Coq Require Import Ascii String List Bool Arith.
From Verif Require Import Base PosixModel PathModel.
Import ListNotations.

(** What is on disk: files with their bytes, directories with their entries in the order [iterdir] gives them. Links and
    special files are left out. *)
Inductive tree := File (bytes : str) | Dir (entries : list (str * tree)).

(** What is shown (tui.py:262-296): directories with what is in them; files with their size and possibly their
    content, as text or as formatted JSON (tui.py:206-218). Styles, icons and links are left out. *)
Inductive panel := Plain (s : str) | Formatted (s : str).
Inductive shown := SDir (name : str) (inside : list shown) | SFile (name : str) (size : nat) (content : option panel).

(** The argument [show_content]: False, True, a list of extensions, or a string, which is a Sequence too (tui.py:281-288). *)
Inductive wanted := WNone | WAll | WList (l : list str) | WStr (s : str).

(** [a in s] for strings. *)
Fixpoint is_prefix (a s : str) : bool :=
  match a, s with
  | [], _ => true
  | c :: a, d :: s => if ascii_dec c d then is_prefix a s else false
  | _ :: _, [] => false
  end.
Fixpoint is_infix (a s : str) : bool :=
  is_prefix a s || match s with [] => false | _ :: r => is_infix a r end.

(** tui.py:281-288. *)
Definition asked (w : wanted) (name : str) : bool :=
  let e := snd (splitext name) in
  match w with
  | WNone => false
  | WAll => true
  | WList l => if in_dec str_eq_dec e l then true else false
  | WStr s => is_infix e s
  end.

(** [text_chars] (tui.py:207). *)
Definition text_char (c : ascii) : bool :=
  let n := nat_of_ascii c in
  existsb (Nat.eqb n) [7; 8; 9; 10; 12; 13; 27] || (Nat.leb 32 n && negb (Nat.eqb n 127)).
(** tui.py:208-209: what is left of the first 1024 bytes without the text characters. *)
Definition is_binary (b : str) : bool := match filter (fun c => negb (text_char c)) (firstn 1024 b) with [] => false | _ => true end.
(** [PurePath.suffix] (tui.py:215): from the last dot on, unless it is the first or the last character. *)
Definition path_suffix (name : str) : str :=
  match split_last_dot name with
  | Some (a, b) => match a, b with [], _ => [] | _, [_] => [] | _, _ => b end
  | None => []
  end.

(** The order of [sorted] (tui.py:252-255): tuples of [is_file] and the lowered name. *)
Fixpoint str_leb (a b : str) : bool :=
  match a, b with
  | [], _ => true
  | _ :: _, [] => false
  | c :: a, d :: b =>
      if ascii_dec c d then str_leb a b else Nat.ltb (nat_of_ascii c) (nat_of_ascii d)
  end.
Definition key := (bool * str)%type.
Definition key_leb (a b : key) : bool :=
  match fst a, fst b with
  | false, true => true
  | true, false => false
  | _, _ => str_leb (snd a) (snd b)
  end.
(** A stable sort. *)
Fixpoint insert {A} (f : A -> key) (a : A) (l : list A) : list A :=
  match l with [] => [a] | b :: r => if key_leb (f a) (f b) then a :: l else b :: insert f a r end.
Fixpoint sorted {A} (f : A -> key) (l : list A) : list A :=
  match l with [] => [] | a :: r => insert f a (sorted f r) end.

Definition is_file (t : tree) : bool := match t with File _ => true | Dir _ => false end.

Section Walk.
(** Reading as text ([None]: UnicodeDecodeError) and whether a text is valid JSON ([rich.json.JSON] raises
    JSONDecodeError otherwise). Both exceptions are ValueErrors. *)
Variable decode : str -> option str.
Variable json_ok : str -> bool.

(** walk_file (tui.py:206-218). *)
Definition walk_file (name b : str) : res (option panel) :=
  if is_binary b then Ok None
  else match decode b with
       | None => Exn ValueError
       | Some s =>
           if str_eq_dec (path_suffix name) ($".json") then
             if json_ok s then Ok (Some (Formatted s)) else Exn ValueError
           else Ok (Some (Plain s))
       end.

(** tui.py:257-260. *)
Definition hidden (name : str) : bool := match name with c :: _ => if ascii_dec c dot_c then true else false | [] => false end.

Fixpoint sequence {A} (l : list (res A)) : res (list A) :=
  match l with [] => Ok [] | r :: l => do a <- r; do l <- sequence l; Ok (a :: l) end.

(** walk_directory (tui.py:220-299) without the printing. The results for the entries are pure values here, so they are
    formed before sorting; those of hidden entries are not used. *)
Fixpoint walk (w : wanted) (show_hidden : bool) (t : tree) : res (list shown) :=
  match t with
  | File _ => Exn NotADirectoryError
  | Dir es =>
      let items := map (fun e =>
        (fst e, (is_file (snd e),
         match snd e with
         | File b => do c <- (if asked w (fst e) then walk_file (fst e) b else Ok None); Ok (SFile (fst e) (List.length b) c)
         | Dir _ => do l <- walk w show_hidden (snd e); Ok (SDir (fst e) l)
         end))) es in
      let paths := sorted (fun i => (fst (snd i), lower (fst i))) items in
      sequence (map (fun i => snd (snd i)) (filter (fun i => show_hidden || negb (hidden (fst i))) paths))
  end.
End Walk.
