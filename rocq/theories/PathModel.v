(** Model of dman/core/path.py: Target, Mount, gitignore, prune_directories, mount,
    get_root_path, script_label. *)
From Coq Require Import List Ascii String Bool Arith NArith Lia DecimalString.
From Verif Require Import Base PosixModel FsModel.
Import ListNotations.

(** * Target (dman/core/path.py:118-208) *)

(** A part of a target is a string or the sentinel [AUTO] ([None] here; path.py:44-45). *)
Definition part := option str.
Record target := mkTarget { t_subdir : part; t_stem : part; t_suffix : part }.

(** path.py:121-138 [Target.__init__]. *)
Definition Target (stem suffix subdir name : part) : res target :=
  match name with
  | Some n =>
      match stem, suffix with
      | None, None => let (st, su) := splitext n in Ok (mkTarget subdir (Some st) (Some su))
      | _, _ => Exn ValueError
      end
  | None => Ok (mkTarget subdir stem suffix)
  end.

(** path.py:140-143 [Target.name]; adding [AUTO] to a string is a TypeError. *)
Definition t_name (t : target) : res str :=
  match t_stem t, t_suffix t with
  | Some a, Some b => Ok (a ++ b)
  | _, _ => Exn TypeError
  end.

(** path.py:145-149 [Target.from_path]. *)
Definition from_path (p : str) : target :=
  let (sd, n) := path_split p in
  let (st, su) := splitext n in
  mkTarget (Some sd) (Some st) (Some su).

(** path.py:178-180 [Target.is_complete]. *)
Definition is_complete (t : target) : bool :=
  match t_subdir t, t_stem t, t_suffix t with Some _, Some _, Some _ => true | _, _, _ => false end.

(** path.py:164-168 [Target.__fspath__]. *)
Definition fspath (t : target) : res str :=
  match t_subdir t, t_stem t, t_suffix t with
  | Some d, Some a, Some b => Ok (join2 d (a ++ b))
  | _, _, _ => Exn TargetException
  end.

(** path.py:170-173 [Target.__hash__]: the value that is hashed. *)
Definition t_key (t : target) : str + (part * part * part) :=
  match fspath t with
  | Ok p => inl (normpath p)
  | Exn _ => inr (t_subdir t, t_stem t, t_suffix t)
  end.

Definition part_eq_dec : forall a b : part, {a = b} + {a <> b}.
Proof. decide equality; apply str_eq_dec. Defined.
Definition key_eq_dec : forall a b : str + (part * part * part), {a = b} + {a <> b}.
Proof. decide equality; repeat (decide equality; try apply ascii_dec). Defined.

(** path.py:175-176 [Target.__eq__]; equality of hashes is read as equality of the hashed values. *)
Definition teq (a b : target) : bool := if key_eq_dec (t_key a) (t_key b) then true else false.

(** [choice == default] of path.py:383 when [choice] is a string: the string's hash against
    the hash of the normalised path. *)
Definition str_teq (s : str) (t : target) : bool :=
  if key_eq_dec (inl s) (t_key t) then true else false.

(** path.py:182-196 [Target.merge]. *)
Definition merge_part (v w : part) : part := match w with None => v | Some _ => w end.
Definition merge2 (a b : target) : target :=
  mkTarget (merge_part (t_subdir a) (t_subdir b))
           (merge_part (t_stem a) (t_stem b))
           (merge_part (t_suffix a) (t_suffix b)).
Fixpoint merge (t : target) (args : list target) : target :=
  match args with
  | [] => t
  | a :: r => merge (merge2 t a) r
  end.

(** path.py:198-208 [Target.update]; the default of [subdir] is [AUTO]. *)
Definition update (t : target) (stem suffix subdir name : part) : res target :=
  do u <- Target stem suffix subdir name; Ok (merge t [u]).

(** path.py:211-218 [target()]; here the default of [subdir] is [""]. *)
Definition target_fn (stem suffix name : part) (subdir : part) : res target :=
  Target stem suffix subdir name.

(** * Name suggestions (path.py:338-348, dman/utils/regex.py:4-12) *)

(** Word characters of Python's [re] among the Latin-1 code points. *)
Definition is_word (c : ascii) : bool :=
  let n := code c in
  is_digit c
  || ((65 <=? n) && (n <=? 90)) || ((97 <=? n) && (n <=? 122)) || (n =? 95)
  || (n =? 170) || (n =? 178) || (n =? 179) || (n =? 181) || (n =? 185) || (n =? 186)
  || ((188 <=? n) && (n <=? 190))
  || ((192 <=? n) && (n <=? 214)) || ((216 <=? n) && (n <=? 246)) || (248 <=? n).

(** Maximal run of digits at the front of a string. *)
Fixpoint take_digits (s : str) : str * str :=
  match s with
  | c :: r => if is_digit c then let (d, t) := take_digits r in (c :: d, t) else ([], s)
  | [] => ([], [])
  end.

Definition at_boundary (rest : str) : bool :=
  match rest with [] => true | c :: _ => negb (is_word c) end.

(** [substitute("[0-9]+\b", "", s)] (regex.py:4-12, called at path.py:343): the string without
    the matches, and the matches.  [fuel] bounds the number of characters scanned. *)
Fixpoint strip_numbers (fuel : nat) (s : str) : str * list str :=
  match fuel with
  | 0 => (s, [])
  | S f =>
      match s with
      | [] => ([], [])
      | c :: r =>
          if is_digit c then
            let (d, t) := take_digits s in
            let (b, ms) := strip_numbers f t in
            if at_boundary t then (b, d :: ms) else (d ++ b, ms)
          else let (b, ms) := strip_numbers f r in (c :: b, ms)
      end
  end.
Definition substitute_numbers (s : str) : str * list str := strip_numbers (List.length s) s.

(** [int(s)] for a string of decimal digits (path.py:347). *)
Fixpoint uint_of_digits (s : str) : Decimal.uint :=
  match s with
  | [] => Decimal.Nil
  | c :: r =>
      let u := uint_of_digits r in
      match code c - 48 with
      | 0 => Decimal.D0 u | 1 => Decimal.D1 u | 2 => Decimal.D2 u | 3 => Decimal.D3 u
      | 4 => Decimal.D4 u | 5 => Decimal.D5 u | 6 => Decimal.D6 u | 7 => Decimal.D7 u
      | 8 => Decimal.D8 u | _ => Decimal.D9 u
      end
  end.
Definition int_of_digits (s : str) : N := N.of_uint (uint_of_digits s).
(** [str(n)] of a natural number (path.py:345-347, f-strings). *)
Definition str_of_N (n : N) : str := list_ascii_of_string (NilEmpty.string_of_uint (N.to_uint n)).

(** The next candidate of [Mount.default] (path.py:343-348). *)
Definition next_stem (stem : str) : str :=
  let (base, ms) := substitute_numbers stem in
  match ms with
  | [] => base ++ $"0"
  | m :: _ => base ++ str_of_N (int_of_digits m + 1)
  end.

(** [target in self.touched] (path.py:340, 362). *)
Definition in_touched (t : target) (touched : list target) : bool := existsb (teq t) touched.

(** path.py:338-348 [Mount.default].  For an incomplete target the regex call gets a
    non-string: TypeError (the f-string of an [AUTO] suffix is not modelled). *)
Fixpoint default_f (fuel : nat) (touched : list target) (t : target) : res target :=
  if in_touched t touched then
    match fuel with
    | 0 => Exn OutOfFuel
    | S f =>
        match t_stem t, t_suffix t with
        | Some st, Some su =>
            do t' <- update t None None None (Some (next_stem st ++ su));
            default_f f touched t'
        | _, _ => Exn TypeError
        end
    end
  else Ok t.
Definition default (touched : list target) (t : target) : res target :=
  default_f (S (List.length touched)) touched t.

(** * User dialogue (dman/utils/user.py:26-33) *)

(** [str.lower] on Latin-1 characters. *)
Definition lower_c (c : ascii) : ascii :=
  let n := code c in
  if ((65 <=? n) && (n <=? 90)) || ((192 <=? n) && (n <=? 214)) || ((216 <=? n) && (n <=? 222))
  then ascii_of_nat (n + 32) else c.
Definition lower (s : str) : str := map lower_c s.

Inductive answer := ADefault | AStr (s : str).
(** user.py:26-33 [prompt_user] with a default: an empty line selects it.  The user is the
    list of lines still to be typed; an exhausted input is an EOFError. *)
Definition prompt_user (inputs : list str) : res (answer * list str) :=
  match inputs with
  | [] => Exn EOFError
  | l :: r => Ok (match lower l with [] => ADefault | s => AStr s end, r)
  end.

(** * Registration (path.py:350-405 [Mount.register]) *)

Definition member (s : str) (l : list str) : bool := if in_dec str_eq_dec s l then true else false.

(** Returns the target, the touched list and the unread input lines.  [conf] is
    [config.on_retouch]; log output is not modelled. *)
Fixpoint register_f (fuel : nat) (conf : str) (choice : option str) (inputs : list str)
         (touched : list target) (t : target) : res (target * list target * list str) :=
  if in_touched t touched then
    match fuel with
    | 0 => Exn OutOfFuel
    | S f =>
        do d <- default touched t;
        let c := match choice with None => conf | Some c => c end in
        do (a, inputs') <- (if str_eq_dec c ($"prompt") then prompt_user inputs
                            else Ok (AStr c, inputs));
        let auto := match a with
                    | ADefault => true
                    | AStr s => str_teq s d || (if str_eq_dec s ($"auto") then true else false)
                    end in
        if auto then
          do n <- t_name d;
          do t' <- update t None None None (Some n);
          register_f f conf (Some ($"auto")) inputs' touched t'
        else match a with
             | ADefault => Exn OutOfFuel (* not reachable: [auto] is true *)
             | AStr s =>
                 if member s [$"q"; $"quit"] then Exn UserQuitException
                 else if member s [$"x"; $"ignore"; $"_ignore"] then Ok (t, touched, inputs')
                 else do t' <- update t None None None (Some s);
                      register_f f conf (Some ($"prompt")) inputs' touched t'
             end
    end
  else Ok (t, touched ++ [t], inputs).
Definition register (conf : str) (choice : option str) (inputs : list str)
           (touched : list target) (t : target) :=
  register_f (S (S (S (List.length inputs)))) conf choice inputs touched t.

(** * Mount (path.py:277-473) *)
Record mount := mkMount {
  m_dir : str; m_cluster : bool; m_gitignore : bool;
  m_touched : list target; m_removed : list target }.

(** path.py:280-291 [Mount.__init__]. *)
Definition new_mount (dir : str) (cluster gitignore : bool) : mount :=
  mkMount dir cluster gitignore [] [].
Definition set_touched (m : mount) (l : list target) : mount :=
  mkMount (m_dir m) (m_cluster m) (m_gitignore m) l (m_removed m).

(** path.py:306-310 [Mount.contains]. *)
Definition contains (cwd dir path : str) : res bool :=
  do a <- commonpath1 dir;
  do b <- commonpath2 dir (abspath cwd path);
  Ok (if str_eq_dec a b then true else false).

(** path.py:312-331 [Mount.abspath]. *)
Definition mount_abspath (cwd dir path : str) (validate : bool) : res str :=
  let p := join2 dir path in
  if validate then
    do c <- contains cwd dir p;
    if c then Ok p else Exn MountException
  else Ok p.

(** path.py:333-336 [Mount.normalize]. *)
Definition normalize (cwd dir path : str) (validate : bool) : res target :=
  do p <- mount_abspath cwd dir path validate;
  do r <- relpath cwd p dir;
  Ok (from_path r).

(** path.py:407-422 [Mount.prepare].  The result carries the file system, the mount and the
    unread inputs in every case, since an exception does not undo earlier effects. *)
Definition prepare (cwd conf : str) (fs : node) (m : mount) (path : str) (validate : bool)
           (choice : option str) (inputs : list str)
  : res target * (node * mount * list str) :=
  match normalize cwd (m_dir m) path validate with
  | Exn e => (Exn e, (fs, m, inputs))
  | Ok t =>
      match register conf choice inputs (m_touched m) t with
      | Exn e => (Exn e, (fs, m, inputs))
      | Ok (t', touched', inputs') =>
          let m' := set_touched m touched' in
          match t_subdir t' with
          | None => (Exn TypeError, (fs, m', inputs'))
          | Some sd =>
              let d := os_loc cwd (join2 (m_dir m) sd) in
              if is_dir fs d then (Ok t', (fs, m', inputs'))
              else match makedirs fs d with
                   | Ok fs' => (Ok t', (fs', m', inputs'))
                   | Exn e => (Exn e, (fs, m', inputs'))
                   end
          end
      end
  end.

(** [list.remove(x)] with Target equality; [None] is the ValueError (path.py:457). *)
Fixpoint remove_first (t : target) (l : list target) : option (list target) :=
  match l with
  | [] => None
  | x :: r => if teq x t then Some r
              else match remove_first t r with Some r' => Some (x :: r') | None => None end
  end.

(** path.py:453-458 [Mount.untrack]: ValueError is suppressed. *)
Definition untrack (cwd : str) (m : mount) (path : str) (validate : bool) : res mount :=
  match normalize cwd (m_dir m) path validate with
  | Exn ValueError => Ok m
  | Exn e => Exn e
  | Ok t =>
      match remove_first t (m_touched m) with
      | None => Ok m
      | Some l => Ok (mkMount (m_dir m) (m_cluster m) (m_gitignore m) l (m_removed m ++ [t]))
      end
  end.

(** path.py:460-467 [Mount.remove]. *)
Definition mount_remove (cwd : str) (fs : node) (m : mount) (path : str) (validate : bool)
  : res unit * (node * mount) :=
  match untrack cwd m path validate with
  | Exn e => (Exn e, (fs, m))
  | Ok m' =>
      let l := os_loc cwd (join2 (m_dir m) path) in
      match lookup fs l with
      | Some (Dir []) => (Ok tt, (delete_at fs l, m'))
      | Some (Dir _) => (Exn IsADirectoryError, (fs, m'))
      | Some (File _) => (Ok tt, (delete_at fs l, m'))
      | None => (Ok tt, (fs, m'))
      end
  end.

(** path.py:248-263 [prune_directories] on a node: whether to keep it, and what is left of it.
    The listing order of a directory does not matter for the result. *)
Fixpoint prune (n : node) : bool * node :=
  match n with
  | File c => (true, File c)
  | Dir es =>
      let es' := (fix go (l : list (str * node)) : list (str * node) :=
                    match l with
                    | [] => []
                    | (x, m) :: r => let (k, m') := prune m in
                                     if k then (x, m') :: go r else go r
                    end) es in
      (match es' with [] => false | _ => true end, Dir es')
  end.

(** path.py:248-263 with [root=True]: the root directory itself is never removed. *)
Definition prune_directories (fs : node) (l : loc) : node :=
  match lookup fs l with
  | None => fs
  | Some n => replace_at fs l (snd (prune n))
  end.

(** ** .gitignore (path.py:221-245) *)

(** [str.splitlines] after text-mode reading, which turns CR and CR LF into LF. *)
Definition is_line_break (c : ascii) : bool :=
  let n := code c in
  (n =? 10) || (n =? 11) || (n =? 12) || (n =? 13) || (n =? 28) || (n =? 29) || (n =? 30) || (n =? 133).
Fixpoint universal_newlines (s : str) : str :=
  match s with
  | [] => []
  | c :: r =>
      if code c =? 13 then
        match r with
        | c2 :: r2 => if code c2 =? 10 then ascii_of_nat 10 :: universal_newlines r2
                      else ascii_of_nat 10 :: universal_newlines r
        | [] => [ascii_of_nat 10]
        end
      else c :: universal_newlines r
  end.
Fixpoint splitlines_acc (cur : str) (s : str) : list str :=
  match s with
  | [] => match cur with [] => [] | _ => [rev cur] end
  | c :: r => if is_line_break c then rev cur :: splitlines_acc [] r
              else splitlines_acc (c :: cur) r
  end.
Definition splitlines (s : str) : list str := splitlines_acc [] (universal_newlines s).

(** Python's order on strings, and sorted duplicate-free insertion ([sorted] of a set). *)
Fixpoint str_leb (a b : str) : bool :=
  match a, b with
  | [], _ => true
  | _ :: _, [] => false
  | x :: a', y :: b' => if code x <? code y then true
                        else if code x =? code y then str_leb a' b' else false
  end.
Fixpoint insert_set (s : str) (l : list str) : list str :=
  match l with
  | [] => [s]
  | x :: r => if str_eq_dec x s then l
              else if str_leb s x then s :: l else x :: insert_set s r
  end.
Definition sorted_set (l : list str) : list str := fold_right insert_set [] l.
(** ["\n".join] (path.py:245). *)
Fixpoint join_lines (l : list str) : str :=
  match l with
  | [] => []
  | [x] => x
  | x :: r => x ++ ascii_of_nat 10 :: join_lines r
  end.

(** path.py:221-245 [gitignore]; [check p] says whether line [p] is in the argument [check]
    (path.py:237).  A .gitignore that is not text cannot be decoded: ValueError (UnicodeDecodeError). *)
Definition gitignore_gen (cwd : str) (fs : node) (dir : str) (ignored : list str) (check : str -> bool)
  : res node :=
  let path := os_loc cwd (join2 dir ($".gitignore")) in
  do original <- match lookup fs path with
                 | None => Ok []
                 | Some (Dir _) => Exn IsADirectoryError
                 | Some (File (Json _)) => Exn ValueError
                 | Some (File (Text s)) =>
                     Ok (filter (fun p => negb (check p)
                                          || exists_at fs (os_loc cwd (join2 dir p)))
                                (splitlines s))
                 end;
  let entries := sorted_set (($".gitignore") :: ignored ++ original) in
  match entries with
  | [_] => os_remove fs path
  | _ => write_file fs path (Text (join_lines entries))
  end.

(** The call of path.py:437-440: [check] is a list of targets, compared with the lines of
    the file by Target equality (path.py:175-176). *)
Definition gitignore (cwd : str) (fs : node) (dir : str) (ignored : list str) (check : list target)
  : res node :=
  gitignore_gen cwd fs dir ignored (fun p => existsb (str_teq p) check).

(** path.py:424-440 [Mount.close]. *)
Definition mount_close (cwd : str) (fs : node) (m : mount) : res node :=
  let fs1 := prune_directories fs (os_loc cwd (m_dir m)) in
  if negb (m_gitignore m) then Ok fs1
  else
    let ignored := flat_map (fun t => match fspath t with
                                      | Ok p => if exists_at fs1 (os_loc cwd (join2 (m_dir m) p))
                                                then [p] else []
                                      | Exn _ => []
                                      end) (m_touched m) in
    match ignored with
    | [] => Ok fs1
    | _ => if m_cluster m then
             let (d, n) := path_split (m_dir m) in gitignore cwd fs1 d [n] (m_removed m)
           else gitignore cwd fs1 (m_dir m) ignored (m_removed m)
    end.

(** path.py:513-519 [mount()] once [base] and [generator] are known. *)
Definition mount_dir (base generator subdir key : str) (cluster : bool) : str :=
  let sd := if cluster then join2 subdir key else subdir in
  joinN base [generator; sd].

(** * Root directory (path.py:53-74 [get_root_path]); [rl] is cwd as reversed list of names *)
Definition root_folder : str := $".dman".
Fixpoint find_root (fs : node) (rl : list str) : option loc :=
  if is_dir fs (rev rl ++ [root_folder]) then Some (rev rl ++ [root_folder])
  else match rl with
       | [] => None                  (* the parent of the root is the root itself *)
       | [_] => None                 (* current_path.parent == current_path after one step up *)
       | _ :: up => find_root fs up
       end.
Definition get_root_path (fs : node) (cwd : loc) (create : bool) : res (loc * node) :=
  match find_root fs (rev cwd) with
  | Some l => Ok (l, fs)
  | None =>
      if create then
        let l := cwd ++ [root_folder] in
        if exists_at fs l then Exn FileExistsError
        else do fs' <- makedirs fs l; Ok (l, fs')
      else Exn RootError
  end.

(** * Script label (path.py:77-97) *)

(** [PurePath.stem] (path.py:91, 96): the name without its last suffix; a leading or a trailing dot
    does not start a suffix. *)
Definition path_stem (name : str) : str :=
  match split_last_dot name with
  | Some (a, b) => match a, b with
                   | [], _ => name
                   | _, [_] => name
                   | _, _ => a
                   end
  | None => name
  end.
(** [s.replace('/', ':')] of path.py:97. *)
Definition colons (s : str) : str := map (fun c => if ascii_dec c sep then ":"%char else c) s.

Fixpoint strip_prefix (p l : list str) : option (list str) :=
  match p, l with
  | [], _ => Some l
  | x :: p', y :: l' => if str_eq_dec x y then strip_prefix p' l' else None
  | _ :: _, [] => None
  end.

(** path.py:77-97; [root] is the location of the project root (the parent of .dman), [argv0]
    is [sys.argv[0]]. *)
Definition script_label (cwd : str) (root : loc) (argv0 : str) : str :=
  match argv0 with
  | [] => $"__interpreter__"
  | _ =>
      match strip_prefix root (os_loc cwd argv0) with
      | None => path_stem (last (comps_cp argv0) [])
      | Some rel =>
          let directory := match removelast rel with [] => dot | d => join_sep d end in
          colons directory ++ $":" ++ path_stem (last rel [])
      end
  end.
