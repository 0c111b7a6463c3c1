(** Records, contexts, model containers, modelclasses and the repository functions on the file
    system: dman/model/record.py, dman/model/modelclasses.py, dman/model/repository.py,
    dman/core/storables.py, and dman/core/serializables.py for a [Context].

    Simplifications common to the file: objects are values (a method that changes its object returns
    the new value; an object whose [__serialize__] raised is kept as it was before the call); texts
    and tracebacks inside invalid markers are left out; log output is left out; tuples are lists;
    keys of dicts are atoms; presets ([pre=]) and templates are left out; the path given to [json] and
    [open] always uses the file system of FsModel. *)
From Coq Require Import List Ascii String Bool Arith ZArith Lia.
From Verif Require Import Base PosixModel FsModel PathModel SerialModel.
Import ListNotations.

(** * Objects *)

(** Invalid markers: errors.py:149-224, serializables.py:424-496, record.py:54-113. *)
Inductive mkind :=
| MUnser | MExcUnser | MUndeser | MExcUndeser
| MNoFile | MUnWritable | MExcUnWritable | MUnReadable | MExcUnReadable.
Record mark := mkMark { mk_kind : mkind; mk_type : option str }.

(** record.py:123-133 [Context]: the mount (an object with identity, hence a number) and the sub
    directory relative to it. *)
Record ctx := mkCtx { c_mnt : nat; c_sub : str }.

(** modelclasses.py:602-625 [_blist.__init__], 1040-1066 [_bruns.__init__] ([q_runs]: stem, run count,
    store_subdir); [q_sto]: the storable variants smlist, smruns (790-800, 1149-1160). *)
Record seqcfg := mkSeq { q_sto : bool; q_sub : str; q_pre : bool; q_runs : option (str * N * bool) }.
(** modelclasses.py:803-834 [_bdict.__init__]; [p_sto]: smdict (1027-1037). *)
Record mapcfg := mkMap { p_sto : bool; p_sub : str; p_pre : bool; p_bykey : bool; p_insub : bool }.

(** What [_RecordExceptions] holds (record.py:396-415): a marker, or after deserialization the
    serialized form of one (410-412). *)
Inductive exc := EMark (m : mark) | ERaw (p : pser).

(** [OLeaf c d]: an instance of a storable user class with its own [__write__]/[__read__]; [d] is all its
    data.  [OModel c fs u]: a modelclass instance; a record field holds its [Record] (modelclasses.py:125-135: [_name] and the entry of [record_fields] are always the same object), [u] is [unused_fields].
    [ORec]: a [Record] with content, target, preload and the two exceptions (record.py:430-442). *)
Inductive obj :=
| OAtom (a : atom)
| OList (l : list obj)
| ODict (d : list (atom * obj))
| OLeaf (c : nat) (data : str)
| OModel (c : nat) (fs : list (str * obj)) (unused : list obj)
| OSeq (q : seqcfg) (store unused : list obj)
| OMap (p : mapcfg) (store : list (str * obj)) (unused : list obj)
| ORec (content : obj) (t : target) (pre : bool) (we re : option exc)
| OUnloaded (ty : option str) (t : target) (base : str) (cx : ctx)
| OUndefined (ty : option str)
| OMark (m : mark).

(** A field of a modelclass (modelclasses.py:415-444): name, [RecordWrap] target and preload if it is a
    record field, listed in [__no_serialize__], default. *)
Record mfield := mkMField { mf_name : str; mf_wrap : option (target * bool); mf_noser : bool; mf_default : option obj }.
(** [SLeaf j ext]: [j] tells whether the class is a dataclass; [ext] is [__ext__].  Leaf classes are not serializable
    (simplification). *)
Inductive skind := SLeaf (j : bool) (ext : option str) | SModel (fs : list mfield).
Record sclass := mkSClass { k_kind : skind; k_ser : option str; k_sto : option str }.

(** The surroundings: classes, the two registries, the user's [__write__] (number of file operations so far,
    data; what is left in the file, and the exception, if any) and [__read__], uuid4, repr of floats, the
    working directory, [config.on_retouch], [config.validate], [config.auto_clean],
    [config.default_suffix]; [s_limit]: the process dies instead of making more than that many file
    operations. *)
Record senv := mkSenv {
  s_class : nat -> sclass;
  s_ser : str -> option nat;
  s_sto : str -> option nat;
  s_write : nat -> nat -> str -> option content * option exn;
  s_read : nat -> nat -> content -> res str;
  s_uuid : nat -> str;
  s_float : Z -> str;
  s_cwd : str; s_retouch : str; s_validate : bool; s_clean : bool; s_suffix : str;
  s_limit : option nat }.

(** * State *)

(** File operations in the order they were made, latest first. *)
Inductive event := EvPrepare (i : nat) (path : str) | EvWrite (l : loc) | EvRead (l : loc) | EvRemove (i : nat) (path : str)
                 | EvClose (i : nat) | EvStat (l : loc).
Record world := mkWorld {
  w_fs : node; w_mounts : list mount; w_inputs : list str; w_uuid : nat; w_log : list event }.

Definition M (A : Type) := world -> res A * world.
Definition ret {A} (a : A) : M A := fun w => (Ok a, w).
Definition raise {A} (e : exn) : M A := fun w => (Exn e, w).
Definition lift {A} (r : res A) : M A := fun w => (r, w).
Definition mbind {A B} (m : M A) (f : A -> M B) : M B :=
  fun w => match m w with (Ok a, w') => f a w' | (Exn e, w') => (Exn e, w') end.
(** [try: ... except]: the outcome of a computation as a value. *)
Definition attempt {A} (m : M A) : M (res A) := fun w => let (r, w') := m w in (Ok r, w').
Notation "x <- m ;; k" := (mbind m (fun x => k)) (at level 61, m at next level, right associativity).

Fixpoint mapM {A B} (f : A -> M B) (l : list A) : M (list B) :=
  match l with
  | [] => ret []
  | x :: r => y <- f x;; ys <- mapM f r;; ret (y :: ys)
  end.

Fixpoint set_nth {A} (n : nat) (x : A) (l : list A) : list A :=
  match l, n with
  | [], _ => []
  | _ :: r, 0 => x :: r
  | y :: r, S n => y :: set_nth n x r
  end.

Section Store.
Variable E : senv.

(** One file operation: dies when the limit is reached. *)
Definition op {A} (ev : event) (f : world -> res A * world) : M A := fun w =>
  match s_limit E with
  | Some k => if k <=? List.length (w_log w) then (Exn Crash, w)
              else f (mkWorld (w_fs w) (w_mounts w) (w_inputs w) (w_uuid w) (ev :: w_log w))
  | None => f (mkWorld (w_fs w) (w_mounts w) (w_inputs w) (w_uuid w) (ev :: w_log w))
  end.

Definition set_fs (w : world) (fs : node) : world :=
  mkWorld fs (w_mounts w) (w_inputs w) (w_uuid w) (w_log w).

(** [open(path, 'w')] and writing (storables.py:150-152, repository.py:225-226). *)
Definition m_write (l : loc) (c : content) : M unit :=
  op (EvWrite l) (fun w => match write_file (w_fs w) l c with
                           | Ok fs => (Ok tt, set_fs w fs)
                           | Exn e => (Exn e, w)
                           end).
(** [open(path, 'r')] and reading (storables.py:155-158, repository.py:312-313). *)
Definition m_read (l : loc) : M content :=
  op (EvRead l) (fun w => match lookup (w_fs w) l with
                          | None => (Exn FileNotFoundError, w)
                          | Some (Dir _) => (Exn IsADirectoryError, w)
                          | Some (File c) => (Ok c, w)
                          end).
(** [Mount.prepare] (path.py:407-422) on mount number [i]. *)
Definition m_prepare (i : nat) (path : str) (choice : option str) : M target :=
  op (EvPrepare i path) (fun w =>
    match nth_error (w_mounts w) i with
    | None => (Exn KeyError, w)     (* not reachable: contexts are made by [open_context] *)
    | Some m =>
        let '(r, (fs, m', inp)) := prepare (s_cwd E) (s_retouch E) (w_fs w) m path true choice (w_inputs w) in
        (r, mkWorld fs (set_nth i m' (w_mounts w)) inp (w_uuid w) (w_log w))
    end).
(** [Mount.remove] (path.py:460-467). *)
Definition m_remove (i : nat) (path : str) : M unit :=
  op (EvRemove i path) (fun w =>
    match nth_error (w_mounts w) i with
    | None => (Exn KeyError, w)
    | Some m =>
        let '(r, (fs, m')) := mount_remove (s_cwd E) (w_fs w) m path true in
        (r, mkWorld fs (set_nth i m' (w_mounts w)) (w_inputs w) (w_uuid w) (w_log w))
    end).
Definition m_dir_of (i : nat) : M str := fun w =>
  match nth_error (w_mounts w) i with None => (Exn KeyError, w) | Some m => (Ok (m_dir m), w) end.
(** [uuid.uuid4()] (record.py:460). *)
Definition m_uuid : M str := fun w =>
  (Ok (s_uuid E (w_uuid w)), mkWorld (w_fs w) (w_mounts w) (w_inputs w) (S (w_uuid w)) (w_log w)).

(** serializables.py:570-587 [process_invalid]. *)
Definition invalid_found : M unit := if s_validate E then raise ValidationError else ret tt.

(** * Types *)
Definition n_record : str := $"_ser__record".
Definition n_mlist : str := $"_ser__mlist".
Definition n_mdict : str := $"_ser__mdict".
(** modelclasses.py:790-800, 1027-1037, 1149-1160: registered names of the containers. *)
Definition seq_name (runs sto : bool) : str :=
  match runs, sto with
  | false, false => n_mlist | false, true => $"_ser__smlist"
  | true, false => $"_ser__mruns" | true, true => $"_ser__smruns"
  end.
Definition seq_sto_name (runs : bool) : str := if runs then $"_sto__smruns" else $"_sto__mlist".
Definition map_name (sto : bool) : str := if sto then $"_ser__smdict" else n_mdict.
Definition map_sto_name : str := $"_sto__smdict".
Definition mark_name (k : mkind) : str :=
  match k with
  | MUnser => n_unser | MExcUnser => n_exc_unser | MUndeser => n_undeser | MExcUndeser => n_exc_undeser
  | MNoFile => $"__no_file" | MUnWritable => $"__un_writable" | MExcUnWritable => $"__exc_un_writable"
  | MUnReadable => $"__un_readable" | MExcUnReadable => $"__exc_un_readable"
  end.

Inductive dty := DRec | DSeq (runs sto : bool) | DMap (sto : bool) | DModel (c : nat) | DMark (k : mkind).
Definition builtin_types : list (str * dty) :=
  (n_record, DRec) ::
  map (fun b => (seq_name (fst b) (snd b), DSeq (fst b) (snd b))) [(false, false); (false, true); (true, false); (true, true)] ++
  map (fun b => (map_name b, DMap b)) [false; true] ++
  map (fun k => (mark_name k, DMark k))
    [MUnser; MExcUnser; MUndeser; MExcUndeser; MNoFile; MUnWritable; MExcUnWritable; MUnReadable; MExcUnReadable].
(** serializables.py:82-85 [ser_str2type]; dman's own names are taken as not overwritten. *)
Definition ser_ty (t : str) : option dty :=
  match assoc t builtin_types with
  | Some d => Some d
  | None => match s_ser E t with Some c => Some (DModel c) | None => None end
  end.
(** The registry of storable types (storables.py:32, 206-209). *)
Inductive sty := STLeaf (c : nat) | STObj (d : dty).
Definition sto_ty (t : str) : option sty :=
  if str_eq_dec t (seq_sto_name false) then Some (STObj (DSeq false true))
  else if str_eq_dec t (seq_sto_name true) then Some (STObj (DSeq true true))
  else if str_eq_dec t map_sto_name then Some (STObj (DMap true))
  else match s_sto E t with
       | Some c => match k_kind (s_class E c) with
                   | SLeaf _ _ => Some (STLeaf c)
                   | SModel _ => Some (STObj (DModel c))
                   end
       | None => None
       end.
(** storables.py:36-41 [sto_type2str]. *)
Definition sto_name (o : obj) : option str :=
  match o with
  | OLeaf c _ | OModel c _ _ => k_sto (s_class E c)
  | OSeq q _ _ => if q_sto q then Some (seq_sto_name (match q_runs q with Some _ => true | None => false end)) else None
  | OMap p _ _ => if p_sto p then Some map_sto_name else None
  | _ => None
  end.
(** storables.py:48-49 [is_storable]. *)
Definition is_storable (o : obj) : bool :=
  match sto_name o with
  | Some n => match sto_ty n with Some _ => true | None => false end
  | None => false
  end.
(** serializables.py:88-98 [is_serializable]. *)
Definition is_serializable (o : obj) : bool :=
  match o with
  | OAtom _ | OList _ | ODict _ | OSeq _ _ _ | OMap _ _ _ | ORec _ _ _ _ _ | OMark _ => true
  | OModel c _ _ => match k_ser (s_class E c) with
                    | Some n => match ser_ty n with Some _ => true | None => false end
                    | None => false
                    end
  | _ => false
  end.
(** record.py:49-51 [is_removable]; leaf classes have no [__remove__] (simplification). *)
Definition is_removable (o : obj) : bool :=
  match o with OModel _ _ _ | OSeq _ _ _ | OMap _ _ _ | ORec _ _ _ _ _ => true | _ => false end.

(** * Creating records *)
Definition auto_target (subdir : str) : target := mkTarget (Some subdir) None None.
(** record.py:611-641 [record(content)] without options. *)
Definition fresh_record (o : obj) : obj := ORec o (auto_target []) false None None.
(** record.py:611-641 [record]. *)
Definition new_record (content : obj) (stem suffix name subdir : part) (pre : bool) : res obj :=
  do t <- Target stem suffix subdir name; Ok (ORec content t pre None None).

(** modelclasses.py:643-644 [_blist.__make_record__], 1071-1083 [_bruns.__make_record__]; the new run count
    is part of the result. *)
Definition run_key (stem : str) (n : N) : str := stem ++ $"-" ++ str_of_N n.
Definition seq_make_record (q : seqcfg) (v : obj) : seqcfg * obj :=
  match q_runs q with
  | None => (q, ORec v (auto_target (q_sub q)) (q_pre q) None None)
  | Some (stem, n, ss) =>
      (mkSeq (q_sto q) (q_sub q) (q_pre q) (Some (stem, (n + 1)%N, ss)),
       ORec v (if ss then mkTarget (Some (join2 (q_sub q) (run_key stem n))) (Some stem) None
               else mkTarget (Some (q_sub q)) (Some (run_key stem n)) None) (q_pre q) None None)
  end.
(** modelclasses.py:936-946 [_bdict.__make_record__]: [Target()] has sub directory [''], which replaces
    the one of the dict in [merge]. *)
Definition map_make_record (p : mapcfg) (k : str) (v : obj) : obj :=
  let kc := mkTarget (Some (if p_insub p then join2 (p_sub p) k else [])) (if p_bykey p then Some k else None) None in
  ORec v (merge (auto_target (p_sub p)) [kc]) (p_pre p) None None.

(** * Contexts (record.py:123-354) *)
Record fns := mkFns {
  f_ser : option ctx -> bool -> obj -> M (obj * pser);
  f_de : option ctx -> option dty -> pser -> M obj;
  f_rm : ctx -> obj -> M obj }.

(** record.py:135-138 [Context.directory]. *)
Definition ctx_dir (cx : ctx) : M str := d <- m_dir_of (c_mnt cx);; ret (join2 d (c_sub cx)).
(** record.py:228-232 [Context.absolute] of a target. *)
Definition ctx_absolute (cx : ctx) (t : target) : res target :=
  match t_subdir t with
  | None => Exn TypeError
  | Some d => update t None None (Some (join2 (c_sub cx) d)) None
  end.
(** record.py:321-325 [Context.join]: the empty sub directory gives the context itself. *)
Definition ctx_join (cx : ctx) (subdir : str) : ctx :=
  match subdir with [] => cx | _ => mkCtx (c_mnt cx) subdir end.
(** record.py:334-339 [Context.prepare]. *)
Definition ctx_prepare (cx : ctx) (t : target) (choice : option str) : M (ctx * target) :=
  a <- lift (ctx_absolute cx t);;
  p <- lift (fspath a);;
  u <- m_prepare (c_mnt cx) p choice;;
  n <- lift (t_name u);;
  match t_subdir u with
  | None => raise TypeError
  | Some d => nt <- lift (Target None None (Some []) (Some n));; ret (ctx_join cx d, nt)
  end.
(** [self.mnt.abspath(local.absolute(target))] (record.py:239, 259). *)
Definition ctx_path (local : ctx) (nt : target) : M loc :=
  d <- m_dir_of (c_mnt local);;
  a <- lift (ctx_absolute local nt);;
  p <- lift (fspath a);;
  ret (os_loc (s_cwd E) (join2 d p)).

Section Body.
Variable F : fns.

(** storables.py:171-191 [write], 150-152 [_write__serializable]: the file is opened (and emptied)
    before the content is serialized. *)
Definition write_storable (local : ctx) (l : loc) (o : obj) : M obj :=
  match o with
  | OLeaf c d => fun w =>
      let (left, e) := s_write E c (List.length (w_log w)) d in
      (_ <- match left with Some x => m_write l x | None => ret tt end;;
       match e with Some e => raise e | None => ret o end) w
  | _ =>
      if is_storable o then
        _ <- m_write l (Text []);;
        x <- f_ser F (Some local) true o;;
        let (o', p) := x : obj * pser in
        _ <- m_write l (Json (to_json (s_float E) p));;
        ret o'
      else raise RuntimeError
  end.

(** storables.py:194-216 [read], 155-158 [_read__serializable]; JSON text in a file that dman did not
    write as JSON is left out (ValueError). *)
Definition read_storable (local : ctx) (l : loc) (ty : option str) : M obj :=
  match match ty with Some t => sto_ty t | None => None end with
  | None => raise RuntimeError
  | Some (STLeaf c) => fun w =>
      (x <- m_read l;; d <- lift (s_read E c (List.length (w_log w)) x);; ret (OLeaf c d)) w
  | Some (STObj d) =>
      x <- m_read l;;
      match x with
      | Json j => f_de F (Some local) (Some d) (of_json j)
      | Text _ => raise ValueError
      end
  end.

(** record.py:234-253 [Context.write].  An exception before [_target] is bound turns into an
    UnboundLocalError at line 253. *)
Definition ctx_write (cx : ctx) (t : target) (o : obj) : M (target * option exc * obj) :=
  prep <- attempt (p <- lift (fspath t);; x <- ctx_prepare cx (from_path p) None;; ret (from_path p, x));;
  match prep with
  | Exn e =>
      if is_ser_error e then raise e
      else match e with
           | UserQuitException => raise StoreError
           | _ => _ <- invalid_found;; raise UnboundLocalError
           end
  | Ok (t1, (local, nt)) =>
      done <- attempt (l <- ctx_path local nt;;
                       n <- lift (t_name nt);;
                       out <- lift (update t1 None None None (Some n));;
                       o' <- write_storable local l o;; ret (out, o'));;
      match done with
      | Ok (out, o') => ret (out, None, o')
      | Exn e =>
          if is_ser_error e then raise e
          else match e with
               | UserQuitException => raise StoreError
               | _ =>
                   _ <- invalid_found;;
                   n <- lift (t_name nt);;
                   out <- lift (update t1 None None None (Some n));;
                   ret (out, Some (EMark (mkMark MExcUnWritable (sto_name o))), o)
               end
      end
  end.

(** record.py:255-278 [Context.read]. *)
Definition ctx_read (cx : ctx) (t : target) (ty : option str) : M obj :=
  r <- attempt (x <- ctx_prepare cx t (Some ($"_ignore"));;
                let (local, nt) := x : ctx * target in
                l <- ctx_path local nt;;
                read_storable local l ty);;
  match r with
  | Ok o => ret o
  | Exn FileNotFoundError => _ <- invalid_found;; ret (OMark (mkMark MNoFile ty))
  | Exn e => if is_ser_error e then raise e
             else _ <- invalid_found;; ret (OMark (mkMark MExcUnReadable ty))
  end.

(** * Records (record.py:418-608) *)

(** record.py:454-467 [Record.target]. *)
Definition json_like (o : obj) : bool :=
  match o with
  | OLeaf c _ => match k_kind (s_class E c) with SLeaf j _ => j | SModel _ => true end
  | _ => true
  end.
Definition ext_of (o : obj) : option str :=
  match o with
  | OLeaf c _ => match k_kind (s_class E c) with SLeaf _ x => x | SModel _ => None end
  | _ => None
  end.
Definition rec_target (content : obj) (t : target) : M target :=
  if is_complete t then ret t
  else stem <- m_uuid;; subdir <- m_uuid;;
       let base := mkTarget (Some subdir) (Some stem) (Some (if json_like content then $".json" else s_suffix E)) in
       let request := mkTarget (Some []) None (ext_of content) in
       ret (merge base [request; t]).

(** record.py:469-474 [Record.sto_type]. *)
Definition rec_sto_type (content : obj) : option str :=
  match content with
  | OUnloaded ty _ _ _ | OUndefined ty => ty
  | _ => sto_name content
  end.

(** record.py:499-513 [Record.load]: the value returned, the new content and read exception. *)
Definition rec_load (content : obj) (re : option exc) : M (obj * obj * option exc) :=
  match content with
  | OUnloaded ty t _ cx =>
      x <- ctx_read cx t ty;;
      match x with
      | OMark m => ret (x, content, Some (EMark m))
      | _ => ret (x, x, None)
      end
  | _ => ret (content, content, re)
  end.

(** record.py:515-536 [Record.store]: the target returned, and the record's new content and exceptions. *)
Definition rec_store (cx : option ctx) (content : obj) (t : target) (we re : option exc)
  : M (target * obj * option exc * option exc) :=
  match cx with
  | Some cx =>
      dir <- ctx_dir cx;;
      let moved := match content with OUnloaded _ _ base _ => if str_eq_dec base dir then false else true | _ => false end in
      let failed := match we with Some _ => true | None => false end in
      let is_unl := match content with OUnloaded _ _ _ _ => true | _ => false end in
      if negb moved && negb failed && is_unl then
        match content with
        | OUnloaded _ ut _ _ => ret (ut, content, we, re)
        | _ => raise TypeError      (* not reachable *)
        end
      else
        x <- (if moved || failed then rec_load content re else ret (content, content, re));;
        let '(_, content', re') := x : obj * obj * option exc in
        t' <- rec_target content' t;;
        y <- ctx_write cx t' content';;
        let '(out, we', content'') := y : target * option exc * obj in
        ret (out, content'', we', re')
  | None =>
      t' <- rec_target content t;;
      _ <- invalid_found;;
      ret (t', content, Some (EMark (mkMark MUnWritable (rec_sto_type content))), re)
  end.

(** * Serialization *)
Definition mark_content (m : mark) : pser := PDict (ser_base (mk_type m) []).
Definition exc_pser (x : exc) : pser :=
  match x with EMark m => typed (mark_name (mk_kind m)) (mark_content m) | ERaw p => p end.
Definition exc_entry (k : string) (x : option exc) : list (atom * pser) :=
  match x with Some x => [(key k, exc_pser x)] | None => [] end.
Definition part_pser (p : part) : pser := opt_str p.

(** record.py:538-551 [Record.__serialize__]. *)
Definition ser_rec (cx : option ctx) (content : obj) (t : target) (pre : bool) (we re : option exc) : M (obj * pser) :=
  let sto := rec_sto_type content in
  x <- rec_store cx content t we re;;
  let '(out, content', we', re') := x : target * obj * option exc * option exc in
  let tgt := match fspath out with
             | Ok p => PAtom (AStr p)
             | Exn _ => PList [part_pser (t_subdir out); part_pser (t_stem out); part_pser (t_suffix out)]
             end in
  let excs := match exc_entry "write" we' ++ exc_entry "read" re' with
              | [] => []
              | l => [(key "exceptions", PDict l)]
              end in
  ret (ORec content' out pre we' re',
       PDict ([(key "target", tgt); (key "sto_type", opt_str sto)]
              ++ (if pre then [(key "preload", PAtom (ABool true))] else []) ++ excs)).

(** record.py:444-446 [Record.exists]. *)
Definition rec_exists (o : obj) : bool :=
  match o with
  | ORec _ _ _ _ (Some (EMark (mkMark MNoFile _))) => false
  | _ => true
  end.

(** record.py:448-452 [Record.isvalid] without [load]. *)
Definition rec_isvalid (o : obj) : bool :=
  match o with
  | ORec _ _ _ _ (Some _) => false
  | _ => true
  end.

(** record.py:644-648 [remove]: nothing happens without a [Context]. *)
Definition rm_all (cx : option ctx) (l : list obj) : M (list obj) :=
  match cx with None => ret l | Some c => mapM (f_rm F c) l end.

(** The loop over the items in modelclasses.py:662-673, 894-905: items whose file is known to be missing
    are left out of the result ([None]). *)
Definition ser_item (cx : option ctx) (o : obj) : M (obj * option pser) :=
  match o with
  | ORec _ _ _ _ _ =>
      if negb (s_clean E) || rec_exists o then x <- f_ser F cx false o;; ret (fst x, Some (snd x))
      else ret (o, None)
  | _ => x <- f_ser F cx false o;; ret (fst x, Some (snd x))
  end.
Definition dangling (l : list (obj * option pser)) : list obj :=
  flat_map (fun x => match snd x with None => [fst x] | Some _ => [] end) l.
Definition kept (l : list (obj * option pser)) : list pser :=
  flat_map (fun x => match snd x with None => [] | Some p => [p] end) l.
Definition str_entry (k : string) (s : str) : list (atom * pser) :=
  match s with [] => [] | _ => [(key k, PAtom (AStr s))] end.
Definition bool_entry (k : string) (b : bool) : list (atom * pser) :=
  if b then [(key k, PAtom (ABool true))] else [].

(** modelclasses.py:646-681 [_blist.__serialize__], 1085-1090 [_bruns.__serialize__]. *)
Definition ser_seq (cx : option ctx) (q : seqcfg) (store unused : list obj) : M (obj * pser) :=
  _ <- (if s_clean E then rm_all cx unused else ret []);;
  items <- mapM (ser_item cx) store;;
  _ <- (if s_clean E then rm_all cx (dangling items) else ret []);;
  ret (OSeq q (map fst items) (if s_clean E then [] else unused),
       PDict (match q_runs q with
              | None => []
              | Some (stem, n, ss) =>
                  [(key "stem", PAtom (AStr stem)); (key "run_count", PAtom (AInt (Z.of_N n)))]
                  ++ (if ss then [] else [(key "store_subdir", PAtom (ABool false))])
              end
              ++ [(key "store", PList (kept items))] ++ str_entry "subdir" (q_sub q) ++ bool_entry "preload" (q_pre q))).

(** modelclasses.py:874-913 [_bdict.__serialize__]. *)
Definition ser_map (cx : option ctx) (p : mapcfg) (store : list (str * obj)) (unused : list obj) : M (obj * pser) :=
  _ <- rm_all cx unused;;
  items <- mapM (fun kv => x <- ser_item cx (snd kv);; ret (fst kv, x)) store;;
  _ <- (if s_clean E then rm_all cx (dangling (map snd items)) else ret []);;
  ret (OMap p (map (fun kx => (fst kx, fst (snd kx))) items) [],
       PDict ([(key "store", PDict (flat_map (fun kx => match snd (snd kx) with
                                                        | Some s => [(AStr (fst kx), s)] | None => [] end) items))]
              ++ str_entry "subdir" (p_sub p) ++ bool_entry "preload" (p_pre p)
              ++ bool_entry "store_by_key" (p_bykey p) ++ bool_entry "store_subdir" (p_insub p))).

(** modelclasses.py:497-527 [_serialize__modelclass]: the fields in order. *)
Fixpoint ser_fields_m (cx : option ctx) (fds : list mfield) (fs : list (str * obj)) : M (list (str * obj) * list (atom * pser)) :=
  match fds with
  | [] => ret (fs, [])
  | f :: r =>
      if mf_noser f then ser_fields_m cx r fs
      else match assoc (mf_name f) fs with
           | None => raise AttributeError
           | Some (OAtom ANone) => ser_fields_m cx r fs
           | Some v =>
               x <- f_ser F cx false v;;
               y <- ser_fields_m cx r (assoc_set (mf_name f) (fst x) fs);;
               ret (fst y, (AStr (mf_name f), snd x) :: snd y)
           end
  end.
Definition ser_model (cx : option ctx) (c : nat) (fds : list mfield) (fs : list (str * obj)) (unused : list obj) : M (obj * pser) :=
  u <- (if s_clean E then rm_all cx unused else ret unused);;
  x <- ser_fields_m cx fds fs;;
  ret (OModel c (fst x) u, PDict (snd x)).

(** record.py:195-226 [Context.serialize_list], [serialize_dict]; serializables.py:666-672 without files.
    The record around a storable item lives only during the call. *)
Definition ser_plain_item (cx : option ctx) (o : obj) : M (obj * pser) :=
  if match cx with Some _ => is_storable o | None => false end then
    x <- f_ser F cx false (fresh_record o);;
    ret (match fst x with ORec c _ _ _ _ => c | _ => o end, snd x)
  else f_ser F cx false o.
Definition has_storable (cx : option ctx) (l : list obj) : bool :=
  match cx with Some _ => existsb is_storable l | None => false end.
Definition ser_list (cx : option ctx) (l : list obj) : M (obj * pser) :=
  xs <- mapM (ser_plain_item cx) l;;
  let p := PList (map snd xs) in
  ret (OList (map fst xs), if has_storable cx l then typed n_mlist (PDict [(key "store", p)]) else p).
Definition ser_dict (cx : option ctx) (d : list (atom * obj)) : M (obj * pser) :=
  xs <- mapM (fun kv => x <- ser_plain_item cx (snd kv);; ret (fst kv, x)) d;;
  let p := PDict (map (fun kx => (fst kx, snd (snd kx))) xs) in
  ret (ODict (map (fun kx => (fst kx, fst (snd kx))) xs),
       if has_storable cx (map snd d) then typed n_mdict (PDict [(key "store", p)]) else p).

(** serializables.py:638-664 [serialize_object]: the type string and the serialize method of an object;
    [None] if its type is not registered. *)
Definition ser_method (cx : option ctx) (o : obj) : option (str * M (obj * pser)) :=
  match o with
  | ORec c t pre we re => Some (n_record, ser_rec cx c t pre we re)
  | OSeq q s u => Some (seq_name (match q_runs q with Some _ => true | None => false end) (q_sto q), ser_seq cx q s u)
  | OMap p s u => Some (map_name (p_sto p), ser_map cx p s u)
  | OMark m => Some (mark_name (mk_kind m), ret (o, mark_content m))
  | OModel c fs u =>
      match k_ser (s_class E c) with
      | Some n => match ser_ty n with
                  | Some _ => Some (n, match k_kind (s_class E c) with
                                       | SModel fds => ser_model cx c fds fs u
                                       | SLeaf _ _ => raise TypeError
                                       end)
                  | None => None
                  end
      | None => None
      end
  | _ => None
  end.
Definition type_name (o : obj) : option str :=
  match o with OLeaf c _ | OModel c _ _ => k_ser (s_class E c) | _ => None end.

(** serializables.py:589-636 [BaseContext.serialize], 541-558 [_call_optional_context]. *)
Definition ser_body (cx : option ctx) (content_only : bool) (o : obj) : M (obj * pser) :=
  match o with
  | OAtom a => ret (o, PAtom a)
  | OList l => ser_list cx l
  | ODict d => ser_dict cx d
  | _ =>
      match ser_method cx o with
      | None =>
          _ <- invalid_found;;
          ret (o, emit content_only (mark_name MUnser, mark_content (mkMark MUnser (type_name o))))
      | Some (n, m) =>
          r <- attempt m;;
          match r with
          | Ok (o', p) => ret (o', emit content_only (n, p))
          | Exn e =>
              if is_ser_error e then raise e
              else _ <- invalid_found;;
                   ret (o, emit content_only (mark_name MExcUnser, mark_content (mkMark MExcUnser (type_name o))))
          end
      end
  end.

(** * Deserialization *)
Definition get (k : string) (d : list (atom * pser)) : option pser :=
  match assoc_a (key k) d with Some (PAtom ANone) => None | x => x end.
Definition get_bool (k : string) (def : bool) (d : list (atom * pser)) : bool :=
  match get k d with Some (PAtom (ABool b)) => b | _ => def end.
Definition get_text (k : string) (def : str) (d : list (atom * pser)) : str :=
  match get k d with Some (PAtom (AStr s)) => s | _ => def end.
Definition raw_exc (k : string) (d : list (atom * pser)) : option exc :=
  match get k d with Some p => Some (ERaw p) | None => None end.

(** record.py:553-598 [Record.__deserialize__]; a target stored as a list (never written for a complete target)
    is treated as an invalid one.  With preload the exceptions found while loading are
    replaced by the stored ones (597); an entry "exceptions" that is not a dict is ignored (simplification). *)
Definition de_rec (cx : option ctx) (d : list (atom * pser)) : M obj :=
  let tgt := match get "target" d with Some (PAtom (AStr s)) => Some (from_path s) | _ => None end in
  let ty := get_str "sto_type" d in
  let pre := get_bool "preload" false d in
  let excs := match get "exceptions" d with Some (PDict e) => (raw_exc "write" e, raw_exc "read" e) | _ => (None, None) end in
  x <- match cx, tgt with
       | Some c, Some t => dir <- ctx_dir c;; ret (OUnloaded ty t dir c, snd excs)
       | _, _ => _ <- invalid_found;; ret (OUndefined ty, Some (EMark (mkMark MUnReadable ty)))
       end;;
  let (content, re) := x : obj * option exc in
  content' <- (if pre then y <- rec_load content re;; ret (snd (fst y)) else ret content);;
  ret (ORec content' (match tgt with Some t => t | None => auto_target [] end) pre (fst excs) re).

(** modelclasses.py:773-776 [_blist.insert] at the end (append). *)
Definition seq_append (qs : seqcfg * list obj) (v : obj) : seqcfg * list obj :=
  let (q, s) := qs in
  if is_storable v then let (q', r) := seq_make_record q v in (q', s ++ [r]) else (q, s ++ [v]).

(** modelclasses.py:683-699 [_blist.__deserialize__], 1092-1098 [_bruns.__deserialize__]. *)
Definition de_seq (cx : option ctx) (runs sto : bool) (d : list (atom * pser)) : M obj :=
  let q0 := mkSeq sto (get_text "subdir" [] d) (get_bool "preload" false d)
                  (if runs then Some ($"run", 0%N, true) else None) in
  match get "store" d with
  | None | Some (PList _) =>
      let l := match get "store" d with Some (PList l) => l | _ => [] end in
      vs <- mapM (f_de F cx None) l;;
      let (q, s) := fold_left seq_append vs (q0, []) in
      ret (OSeq (mkSeq sto (q_sub q) (q_pre q)
                       (if runs then Some (get_text "stem" [] d,
                                           match get "run_count" d with Some (PAtom (AInt z)) => Z.to_N z | _ => 0%N end,
                                           get_bool "store_subdir" true d)
                        else None)) s [])
  | Some _ => raise TypeError
  end.

(** modelclasses.py:915-934 [_bdict.__deserialize__]: keys come from JSON text, hence are strings; assigning
    a key again moves it to the end (965-976). *)
Definition map_put (p : mapcfg) (s : list (str * obj)) (kv : str * obj) : list (str * obj) :=
  assoc_del (fst kv) s ++ [(fst kv, if is_storable (snd kv) then map_make_record p (fst kv) (snd kv) else snd kv)].
Definition de_map (cx : option ctx) (sto : bool) (d : list (atom * pser)) : M obj :=
  let p := mkMap sto (get_text "subdir" [] d) (get_bool "preload" false d)
                 (get_bool "store_by_key" false d) (get_bool "store_subdir" false d) in
  match get "store" d with
  | None => ret (OMap p [] [])
  | Some (PDict kvs) =>
      vs <- mapM (fun kv => k <- lift (str_key (fst kv));; v <- f_de F cx None (snd kv);; ret (k, v)) kvs;;
      ret (OMap p (fold_left (map_put p) vs []) [])
  | Some _ => raise AttributeError
  end.

(** [RecordWrap.__set__] on a new instance (modelclasses.py:109-135). *)
Definition wrap_new (f : mfield) (v : obj) : obj :=
  match mf_wrap f with
  | Some (t, pre) => if is_storable v then ORec v t pre None None else v
  | None => v
  end.
(** modelclasses.py:530-544 [_deserialize__modelclass]. *)
Fixpoint de_fields (cx : option ctx) (fds : list mfield) (d : list (atom * pser)) : M (list (str * obj)) :=
  match fds with
  | [] => ret []
  | f :: r =>
      v <- match assoc_a (AStr (mf_name f)) d with
           | Some (PAtom ANone) | None =>
               ret (match mf_default f with Some v => v | None => OAtom ANone end)
           | Some p => f_de F cx None p
           end;;
      rest <- de_fields cx r d;;
      ret ((mf_name f, wrap_new f v) :: rest)
  end.
Definition de_model (cx : option ctx) (c : nat) (d : list (atom * pser)) : M obj :=
  match k_kind (s_class E c) with
  | SModel fds => fs <- de_fields cx fds d;; ret (OModel c fs [])
  | SLeaf _ _ => raise TypeError
  end.

(** serializables.py:761-781 [deserialize_object].  Reading a marker back is simplified: kind and type
    are kept. *)
Definition de_object (cx : option ctx) (ty : dty) (p : pser) : M obj :=
  r <- attempt match p with
               | PDict d => match ty with
                            | DRec => de_rec cx d
                            | DSeq runs sto => de_seq cx runs sto d
                            | DMap sto => de_map cx sto d
                            | DModel c => de_model cx c d
                            | DMark k => ret (OMark (mkMark k (get_str "type" d)))
                            end
               | _ => raise AttributeError
               end;;
  match r with
  | Ok o => ret o
  | Exn e => if is_ser_error e then raise e else ret (OMark (mkMark MExcUndeser None))
  end.

(** serializables.py:674-759 [BaseContext.deserialize]. *)
Definition de_body (cx : option ctx) (x : option dty) (p : pser) : M obj :=
  match p with
  | PAtom ANone => ret (OAtom ANone)
  | _ =>
      o <- match x with
           | Some ty => de_object cx ty p
           | None =>
               match p with
               | PAtom a => ret (OAtom a)
               | PList l => vs <- mapM (f_de F cx None) l;; ret (OList vs)
               | PDict d =>
                   match assoc_a (AStr SER_TYPE) d with
                   | None => vs <- mapM (fun kv => v <- f_de F cx None (snd kv);; ret (fst kv, v)) d;; ret (ODict vs)
                   | Some (PAtom (AStr t)) =>
                       match ser_ty t with
                       | None => ret (OMark (mkMark MUndeser None))
                       | Some ty => de_object cx ty match assoc_a (AStr SER_CONTENT) d with Some q => q | None => PDict [] end
                       end
                   | Some (PAtom _) => ret (OMark (mkMark MUndeser None))
                   | Some _ => raise TypeError
                   end
               end
           end;;
      match o with
      | OMark _ => _ <- invalid_found;; ret o
      | _ => ret o
      end
  end.

(** * Removal *)

(** record.py:600-608 [Record.__remove__] and 280-298 [Context.remove] of its target. *)
Definition rm_rec (cx : ctx) (content : obj) (t : target) (pre : bool) (we re : option exc) : M obj :=
  x <- rec_load content re;;
  let '(v, content', re') := x : obj * obj * option exc in
  match v with
  | OMark _ => ret (ORec content' t pre we re')
  | _ =>
      t' <- rec_target content' t;;
      a <- lift (ctx_absolute cx t');;
      p <- lift (fspath a);;
      r <- attempt (m_remove (c_mnt cx) p);;
      _ <- match r with Ok _ | Exn MountException => ret tt | Exn e => raise e end;;
      v' <- f_rm F (ctx_join cx match t_subdir a with Some d => d | None => [] end) content';;
      ret (ORec v' t' pre we re')
  end.
Fixpoint rm_fields (cx : ctx) (fds : list mfield) (fs : list (str * obj)) : M (list (str * obj)) :=
  match fds with
  | [] => ret fs
  | f :: r =>
      if mf_noser f then rm_fields cx r fs
      else match assoc (mf_name f) fs with
           | None => raise AttributeError
           | Some v => v' <- f_rm F cx v;; rm_fields cx r (assoc_set (mf_name f) v' fs)
           end
  end.
(** record.py:280-319 [Context.remove] of an object; modelclasses.py:478-494 [_remove__modelclass],
    742-745, 948-951 [__remove__] of the containers (their pending [unused] items are not looked at). *)
Definition rm_body (cx : ctx) (o : obj) : M obj :=
  match o with
  | ORec c t pre we re => rm_rec cx c t pre we re
  | OSeq q s u => s' <- mapM (f_rm F cx) s;; ret (OSeq q s' u)
  | OMap p s u => s' <- mapM (fun kv => v <- f_rm F cx (snd kv);; ret (fst kv, v)) s;; ret (OMap p s' u)
  | OModel c fs u =>
      u' <- (if s_clean E then mapM (f_rm F cx) u else ret u);;
      match k_kind (s_class E c) with
      | SModel fds => fs' <- rm_fields cx fds fs;; ret (OModel c fs' u')
      | SLeaf _ _ => ret (OModel c fs u')
      end
  | OList l => l' <- mapM (f_rm F cx) l;; ret (OList l')
  | ODict d => d' <- mapM (fun kv => v <- f_rm F cx (snd kv);; ret (fst kv, v)) d;; ret (ODict d')
  | _ => ret o
  end.
End Body.

(** The recursion through nested objects and through files, cut off at depth [n]. *)
Fixpoint depth (n : nat) : fns :=
  match n with
  | 0 => mkFns (fun _ _ _ => raise OutOfFuel) (fun _ _ _ => raise OutOfFuel) (fun _ _ => raise OutOfFuel)
  | S k => let F := depth k in mkFns (ser_body F) (de_body F) (rm_body F)
  end.
Definition serialize (n : nat) (cx : option ctx) (o : obj) : M (obj * pser) := f_ser (depth n) cx false o.
Definition deserialize (n : nat) (cx : option ctx) (p : pser) : M obj := f_de (depth n) cx None p.
Definition remove (n : nat) (cx : ctx) (o : obj) : M obj := f_rm (depth n) cx o.
(** record.py:476-479 [Record.content] of a record in a container or field; any other value is itself.
    The value and the updated record. *)
Definition content_of (n : nat) (o : obj) : M (obj * obj) :=
  match o with
  | ORec c t pre we re => x <- rec_load (depth n) c re;; let '(v, c', re') := x : obj * obj * option exc in ret (v, ORec c' t pre we re')
  | _ => ret (o, o)
  end.

(** * Repository (dman/model/repository.py) *)

(** The options of save, load, ... with [base] and [generator] given (path.py:510-519). *)
Record opts := mkOpts { o_base : str; o_generator : str; o_subdir : str; o_cluster : bool; o_gitignore : bool }.
Definition key_dir (p : opts) (k : str) : str := mount_dir (o_base p) (o_generator p) (o_subdir p) k (o_cluster p).

(** repository.py:46-93 [context]: entering. *)
Definition open_context (p : opts) (k : str) : M ctx := fun w =>
  (Ok (mkCtx (List.length (w_mounts w)) []),
   mkWorld (w_fs w) (w_mounts w ++ [new_mount (key_dir p k) (o_cluster p) (o_gitignore p)])
           (w_inputs w) (w_uuid w) (w_log w)).
(** repository.py:93 and path.py:424-440: leaving normally. *)
Definition close_context (cx : ctx) : M unit :=
  op (EvClose (c_mnt cx)) (fun w =>
    match nth_error (w_mounts w) (c_mnt cx) with
    | None => (Exn KeyError, w)
    | Some m => match mount_close (s_cwd E) (w_fs w) m with
                | Ok fs => (Ok tt, set_fs w fs)
                | Exn e => (Exn e, set_fs w (prune_directories (w_fs w) (os_loc (s_cwd E) (m_dir m))))
                end
    end).

Definition json_name (k : str) : target := mkTarget (Some []) (Some k) (Some ($".json")).

(** repository.py:161-231 [save]: the object after the call and the value returned. *)
Definition save (n : nat) (p : opts) (k : str) (o : obj) : M (obj * pser) :=
  o1 <- (if is_serializable o then ret o else if is_storable o then ret (fresh_record o) else raise ValueError);;
  cx <- open_context p k;;
  x <- ctx_prepare cx (json_name k) None;;
  dir <- ctx_dir cx;;
  nm <- lift (fspath (snd x));;
  let l := os_loc (s_cwd E) (join2 dir nm) in
  y <- serialize n (Some cx) o1;;
  _ <- m_write l (Text []);;
  _ <- m_write l (Json (to_json (s_float E) (snd y)));;
  _ <- close_context cx;;
  ret y.

(** [os.path.exists] (repository.py:295). *)
Definition m_exists (l : loc) : M bool := op (EvStat l) (fun w => (Ok (exists_at (w_fs w) l), w)).

(** repository.py:234-319 [load]; default factories are modelled by the value they build. *)
Definition load (n : nat) (p : opts) (k : str) (default default_factory : option obj) : M obj :=
  cx <- open_context p k;;
  dir <- ctx_dir cx;;
  let l := os_loc (s_cwd E) (join2 dir (k ++ $".json")) in
  e <- m_exists l;;
  o <- (if e then
          x <- m_read l;;
          match x with
          | Json j => deserialize n (Some cx) (of_json j)
          | Text _ => raise ValueError
          end
        else match default, default_factory with
             | None, None => raise FileNotFoundError
             | None, Some v => ret v
             | Some v, _ => ret v
             end);;
  _ <- close_context cx;;
  ret o.

(** repository.py:96-158 [store]. *)
Definition store (n : nat) (p : opts) (k : str) (o : obj) : M pser :=
  if is_storable o then
    cx <- open_context p k;;
    t <- rec_target o (mkTarget (Some []) (Some k) None);;
    y <- serialize n (Some cx) (ORec o t false None None);;
    _ <- close_context cx;;
    ret (snd y)
  else raise ValueError.

(** [Path(d).parent] (repository.py:380). *)
Definition parent_dir (d : str) : str := fst (path_split (rstrip_sep d)).
(** repository.py:322-382 [clean]. *)
Definition with_default_gitignore (p : opts) : opts := mkOpts (o_base p) (o_generator p) (o_subdir p) (o_cluster p) true.
Definition m_unignore (dir : str) (line : str) : M unit := fun w =>
  match gitignore_gen (s_cwd E) (w_fs w) dir [] (fun p => if str_eq_dec p line then true else false) with
  | Ok fs => (Ok tt, set_fs w fs)
  | Exn e => (Exn e, w)
  end.
Definition repo_clean (n : nat) (p0 : opts) (k : str) : M unit :=
  let p := with_default_gitignore p0 in
  o <- load n p k (Some (OAtom ANone)) None;;
  if negb (is_removable o) then ret tt
  else
    cx <- open_context p k;;
    _ <- remove n cx o;;
    dir <- ctx_dir cx;;
    let l := os_loc (s_cwd E) (join2 dir (k ++ $".json")) in
    _ <- op (EvRemove (c_mnt cx) (k ++ $".json")) (fun w =>
           match lookup (w_fs w) l with
           | Some (File _) => (Ok tt, set_fs w (delete_at (w_fs w) l))
           | _ => (Ok tt, w)
           end);;
    _ <- close_context cx;;
    if o_cluster p then
      op (EvRemove (c_mnt cx) []) (fun w =>
        match lookup (w_fs w) (os_loc (s_cwd E) dir) with
        | Some (Dir []) =>
            m_unignore (parent_dir dir) k (set_fs w (delete_at (w_fs w) (os_loc (s_cwd E) dir)))
        | Some (Dir _) => (Ok tt, w)
        | Some (File _) => (Exn NotADirectoryError, w)
        | None => (Exn FileNotFoundError, w)
        end)
    else m_unignore dir (k ++ $".json").
End Store.
