(** Model of runs whose stem may be [None], the default of [smruns_factory] (modelclasses.py:1229-1241): from the record that
    is made for an item to the path it is written to. *)
From Coq Require Import Ascii String List Bool Arith NArith.
From Verif Require Import Base PosixModel PathModel.
Import ListNotations.

(** The parts of a target as Python values: [AUTO], [None] or a string. *)
Inductive pypart := PyAuto | PyNone | PyStr (s : str).
Record pytarget := mkPy { y_subdir : pypart; y_stem : pypart; y_suffix : pypart }.

(** path.py:173-189 [Target.merge], one argument. *)
Definition or_else (v w : pypart) : pypart := match w with PyAuto => v | _ => w end.
Definition py_merge (t u : pytarget) : pytarget :=
  mkPy (or_else (y_subdir t) (y_subdir u)) (or_else (y_stem t) (y_stem u)) (or_else (y_suffix t) (y_suffix u)).
(** path.py:169-171 [is_complete]. *)
Definition is_auto (v : pypart) : bool := match v with PyAuto => true | _ => false end.
Definition py_complete (t : pytarget) : bool := negb (is_auto (y_subdir t) || is_auto (y_stem t) || is_auto (y_suffix t)).
(** path.py:137-140 [name]: adding strings. *)
Definition py_name (t : pytarget) : res str :=
  match y_stem t, y_suffix t with PyStr a, PyStr b => Ok (a ++ b) | _, _ => Exn TypeError end.
(** path.py:156-160 [__fspath__]. *)
Definition py_fspath (t : pytarget) : res str :=
  if py_complete t then
    do n <- py_name t;
    match y_subdir t with PyStr d => Ok (join2 d n) | _ => Exn TypeError end
  else Exn TargetException.

(** The text of a stem in an f-string. *)
Definition py_text (stem : option str) : str := match stem with Some s => s | None => $"None" end.
Definition py_stem (stem : option str) : pypart := match stem with Some s => PyStr s | None => PyNone end.

(** modelclasses.py:1071-1083 [_bruns.__make_record__]: the target of the record; [config] is [Target(subdir=self.subdir)]
    (1067-1069). *)
Definition run_target (stem : option str) (count : N) (sub : str) (store_subdir : bool) : pytarget :=
  let key := py_text stem ++ $"-" ++ str_of_N count in
  let key_config := mkPy (PyStr []) (PyStr key) PyAuto in
  let key_config := if store_subdir
                    then py_merge key_config (mkPy (PyStr (join2 sub key)) (py_stem stem) PyAuto)
                    else py_merge key_config (mkPy (PyStr sub) PyAuto PyAuto) in
  py_merge (mkPy (PyStr sub) PyAuto PyAuto) key_config.

(** record.py:453-467 [Record.target]: [u1], [u2] are the uuids, [default] the suffix by kind of content, [ext] the
    [__ext__] of the content if it has one. *)
Definition record_target (t : pytarget) (u1 u2 default : str) (ext : option str) : pytarget :=
  if py_complete t then t
  else py_merge (py_merge (mkPy (PyStr u2) (PyStr u1) (PyStr default))
                          (mkPy (PyStr []) PyAuto (match ext with Some e => PyStr e | None => PyAuto end))) t.

(** record.py:234-253 [Context.write] up to preparing the file: the path asked for, relative to the context.  An exception
    before [_target] is bound makes the handler fail itself (253).  Simplification: writing succeeds. *)
Definition ctx_write (t : pytarget) : res str :=
  match py_fspath t with
  | Ok p => Ok p
  | Exn _ => Exn UnboundLocalError
  end.

(** Items of runs: what is kept inline, and storables with what determines their target. *)
Inductive item := INone (n : nat) | IStorable (u1 u2 default : str) (ext : option str).
(** What stands for an item in the file of the runs: the item, a record of a file, or the marker of an exception. *)
Inductive stored := SInline (n : nat) | SFile (path : str) | SMarker (e : exn).
(** Appending items one after the other (modelclasses.py:1071-1083): storables get a record. *)
Fixpoint append_items (stem : option str) (count : N) (sub : str) (ss : bool) (l : list item) : list (nat + pytarget * item) * N :=
  match l with
  | [] => ([], count)
  | INone n :: r => let (x, c) := append_items stem count sub ss r in (inl n :: x, c)
  | IStorable u1 u2 d e as i :: r =>
      let (x, c) := append_items stem (count + 1)%N sub ss r in (inr (run_target stem count sub ss, i) :: x, c)
  end.
(** serializables.py:541-558, 570-587, 626-636: [Record.__serialize__] (record.py:519-535) under [_call_optional_context];
    with validation a marker is a ValidationError. *)
Definition save_item (validate : bool) (x : nat + pytarget * item) : res stored :=
  match x with
  | inl n => Ok (SInline n)
  | inr (t, i) =>
      match i with
      | INone n => Ok (SInline n)
      | IStorable u1 u2 d e =>
          match ctx_write (record_target t u1 u2 d e) with
          | Ok p => Ok (SFile p)
          | Exn e => if validate then Exn ValidationError else Ok (SMarker e)
          end
      end
  end.
Fixpoint save_items (validate : bool) (l : list (nat + pytarget * item)) : res (list stored) :=
  match l with
  | [] => Ok []
  | x :: r => do y <- save_item validate x; do r <- save_items validate r; Ok (y :: r)
  end.
(** A container of runs filled with items and saved. *)
Definition save_runs (validate : bool) (stem : option str) (sub : str) (ss : bool) (l : list item) : res (list stored) :=
  save_items validate (fst (append_items stem 0%N sub ss l)).
(** The defaults of the factories (modelclasses.py:1214-1241). *)
Definition mruns_factory_stem : option str := Some ($"run").
Definition smruns_factory_stem : option str := None.
