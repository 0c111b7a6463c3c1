(** Serialization without files: dman/core/serializables.py with the plain [BaseContext], and the
    invalid markers of dman/core/errors.py.  Line numbers without file name refer to
    dman/core/serializables.py. *)
From Coq Require Import List Ascii String Bool Arith ZArith Lia.
From Coq Require Import Decimal DecimalString.
From Verif Require Import Base PosixModel FsModel PathModel.
Import ListNotations.

(** * Values *)

(** dman/utils/sjson.py:42-44, 49-50 [atomic_types].  Floats are opaque tokens; aliases added by
    [register_atomic_alias] are not modelled. *)
Inductive atom := ANone | ABool (b : bool) | AInt (z : Z) | AFloat (f : Z) | AStr (s : str).
Definition atom_eq_dec : forall a b : atom, {a = b} + {a <> b}.
Proof. decide equality; (apply bool_dec || apply Z.eq_dec || apply str_eq_dec). Defined.

(** What [serialize] returns and [deserialize] takes: atoms, lists and dicts with atomic keys
    (589-672, 674-759). *)
Inductive pser :=
| PAtom (a : atom)
| PList (l : list pser)
| PDict (d : list (atom * pser)).

(** Invalid markers: errors.py:149-179 [BaseInvalid], 182-224 [ExcInvalid]; 424-496.  [info] texts are
    abbreviated; a traceback is kept in its serialized form. *)
Inductive invalid :=
| IUnser (type : option str) (info : str)
| IExcUnser (type : option str) (info : str) (trace : pser)
| IUndeser (type : option str) (info : str) (serialized : pser) (expected : option str)
| IExcUndeser (type : option str) (info : str) (trace : pser) (serialized : pser) (expected : option str).

(** Python values.  Dict keys are atoms (simplification: other hashable keys are left out).
    [VObj c fs] is an instance of class number [c] with its attributes, [VEnum] a member of an Enum
    class, [VInst i] an object known only by identity. *)
Inductive val :=
| VAtom (a : atom)
| VList (l : list val)
| VTuple (l : list val)
| VDict (d : list (atom * val))
| VObj (c : nat) (fs : list (str * val))
| VEnum (c : nat) (m : str)
| VInst (i : nat)
| VInvalid (i : invalid).

(** * Classes *)

(** A dataclass field (239-255): name, takes part in [__init__], default, listed in
    [__no_serialize__].  Default factories are modelled by the value they build. *)
Record field := mkField { f_name : str; f_init : bool; f_default : option val; f_noser : bool }.

(** Which [__serialize__]/[__deserialize__] a class ends up with in 302-365 [serializable]:
    dataclass (340-344), Enum (346-350), methods written by the user, or none. *)
Inductive kind :=
| KData (fs : list field)
| KEnum (members : list str)
| KUser
| KNone.

(** [c_name] is [__name__]; [c_type] the (possibly inherited) attribute [_ser__type] (324);
    [c_custom] the name under which the class is in [__custom_serializable] (146-147). *)
Record class := mkClass { c_name : str; c_type : option str; c_custom : option str; c_kind : kind }.

Inductive aty := TStr | TInt | TFloat | TBool | TNone.
Definition aty_of (a : atom) : aty :=
  match a with AStr _ => TStr | AInt _ => TInt | AFloat _ => TFloat | ABool _ => TBool | ANone => TNone end.

Definition aty_eq_dec : forall a b : aty, {a = b} + {a <> b}.
Proof. decide equality. Defined.

(** The surroundings of a call: classes, the registry [__serializable_types] (32, 145), registered
    instances (375, 396-421), the user's methods, exception traces, and the constructors of the
    atomic types for values of another type ([None] stands for a suppressed
    ValueError, 785). *)
Record env := mkEnv {
  e_class : nat -> class;
  e_types : str -> option nat;
  e_insts : list (str * nat);
  e_ser : nat -> list (str * val) -> res (pser + invalid);
  e_de : nat -> pser -> res val;
  e_trace : exn -> pser;
  e_parse_trace : pser -> res pser;
  e_cast : aty -> pser -> res (option atom) }.

(** * The type registry (76-85) *)
Definition SER_TYPE : str := $"_ser__type".
Definition SER_CONTENT : str := $"_ser__content".
Definition n_unser : str := $"__unserializable".
Definition n_exc_unser : str := $"__exc_unserializable".
Definition n_undeser : str := $"__undeserializable".
Definition n_exc_undeser : str := $"__exc_undeserializable".
Definition n_instance : str := $"__instance".

Inductive tcls := CUser (c : nat) | CUnser | CExcUnser | CUndeser | CExcUndeser | CInstance.

(** 82-85 [ser_str2type]; the names of dman's own markers are taken as not overwritten. *)
Definition str2type (E : env) (t : str) : option tcls :=
  if str_eq_dec t n_unser then Some CUnser
  else if str_eq_dec t n_exc_unser then Some CExcUnser
  else if str_eq_dec t n_undeser then Some CUndeser
  else if str_eq_dec t n_exc_undeser then Some CExcUndeser
  else if str_eq_dec t n_instance then Some CInstance
  else match e_types E t with Some c => Some (CUser c) | None => None end.

(** 76-79 [ser_type2str] of a class. *)
Definition type2str (E : env) (c : tcls) : option str :=
  match c with
  | CUser c => c_type (e_class E c)
  | CUnser => Some n_unser
  | CExcUnser => Some n_exc_unser
  | CUndeser => Some n_undeser
  | CExcUndeser => Some n_exc_undeser
  | CInstance => Some n_instance
  end.

(** 101-103 [is_serializable_type_str]. *)
Definition is_type_str (E : env) (t : option str) : bool :=
  match t with Some t => match str2type E t with Some _ => true | None => false end | None => false end.

(** The exceptions let through by [_call_optional_context] (553-556): SerializationError with its
    subclasses ValidationError (508-521) and StoreError (record.py:113-117), and what is not an
    [Exception] (KeyboardInterrupt; the model's own signals for a killed process and for missing fuel). *)
Definition is_ser_error (e : exn) : bool :=
  match e with
  | SerializationError | ValidationError | StoreError | KeyboardInterrupt | Crash | OutOfFuel => true
  | _ => false
  end.

Definition opt_str (o : option str) : pser := match o with Some s => PAtom (AStr s) | None => PAtom ANone end.
Definition key (s : string) : atom := AStr ($s).
Definition typed (t : str) (content : pser) : pser :=
  PDict [(AStr SER_TYPE, PAtom (AStr t)); (AStr SER_CONTENT, content)].

(** * Serialization *)

(** errors.py:171-175, 212-216; 453-459, 483-489: [__serialize__] of the markers. *)
Definition ser_base (type : option str) (info : str) : list (atom * pser) :=
  (key "type", opt_str type) :: (match info with [] => [] | _ => [(key "info", PAtom (AStr info))] end).
Definition opt_entry (k : string) (o : option str) : list (atom * pser) :=
  match o with Some s => [(key k, PAtom (AStr s))] | None => [] end.
Definition nn_entry (k : string) (p : pser) : list (atom * pser) :=
  match p with PAtom ANone => [] | _ => [(key k, p)] end.
Definition ser_invalid (i : invalid) : str * pser :=
  match i with
  | IUnser t n => (n_unser, PDict (ser_base t n))
  | IExcUnser t n tr => (n_exc_unser, PDict (ser_base t n ++ [(key "trace", tr)]))
  | IUndeser t n s e => (n_undeser, PDict (ser_base t n ++ nn_entry "serialized" s ++ opt_entry "ser_type" e))
  | IExcUndeser t n tr s e =>
      (n_exc_undeser, PDict (ser_base t n ++ [(key "trace", tr)] ++ nn_entry "serialized" s ++ opt_entry "expected" e))
  end.

(** Python's left-to-right evaluation of a comprehension. *)
Definition map_res {A B} (f : A -> res B) : list A -> res (list B) :=
  fix go (l : list A) : res (list B) :=
    match l with
    | [] => Ok []
    | x :: r => do y <- f x; do ys <- go r; Ok (y :: ys)
    end.

Section WithEnv.
Variable E : env.
Variable validate : bool.

(** 570-587 [process_invalid]: logging is left out. *)
Definition process_invalid : res unit := if validate then Exn ValidationError else Ok tt.

(** 541-558 [_call_optional_context] around a serialize method (649-655, 657-664). *)
Definition call_ser (name : str) (r : res (pser + invalid)) : res (pser + invalid) :=
  match r with
  | Ok x => Ok x
  | Exn e => if is_ser_error e then Exn e
             else Ok (inr (IExcUnser (Some name) ($"Error during serialization:") (e_trace E e)))
  end.

(** 626-636: the type string and content of an object, markers replaced by their own
    serialization. *)
Definition finish (t : str) (r : res (pser + invalid)) : res (str * pser) :=
  do x <- r;
  match x with
  | inl content => Ok (t, content)
  | inr i => do _ <- process_invalid; Ok (ser_invalid i)
  end.
Definition emit (content_only : bool) (x : str * pser) : pser :=
  if content_only then snd x else typed (fst x) (snd x).

(** 643-647: not registered. *)
Definition unserializable (name : str) : res (pser + invalid) :=
  Ok (inr (IUnser (Some name) ($"Unserializable type"))).

(** 239-246 [_serialize__dataclass]: [getattr] of a missing attribute is an AttributeError; [vs] holds
    the attributes with their serialization. *)
Fixpoint ser_fields (fs : list field) (vs : list (str * res pser)) : res (list (atom * pser)) :=
  match fs with
  | [] => Ok []
  | f :: r =>
      if f_noser f then ser_fields r vs
      else match assoc (f_name f) vs with
           | None => Exn AttributeError
           | Some s => do p <- s; do ps <- ser_fields r vs; Ok ((AStr (f_name f), p) :: ps)
           end
  end.

(** 381-386 [_Instance.__convert__]: the first registered name of an object. *)
Fixpoint inst_name (l : list (str * nat)) (i : nat) : option str :=
  match l with
  | [] => None
  | (n, j) :: r => if Nat.eqb i j then Some n else inst_name r i
  end.

(** The type string used for an object of class [c] (640-648): custom first, then the attribute
    if registered. *)
Definition obj_type (c : nat) : option str :=
  match c_custom (e_class E c) with
  | Some n => Some n
  | None => match c_type (e_class E c) with
            | Some t => if is_type_str E (Some t) then Some t else None
            | None => None
            end
  end.

(** The serialize method of a class applied to an instance (648-664). *)
Definition obj_content (c : nat) (fs : list (str * val)) (sub : list (str * res pser)) : res (pser + invalid) :=
  match c_custom (e_class E c) with
  | Some _ => e_ser E c fs
  | None =>
      match c_kind (e_class E c) with
      | KData fds => do d <- ser_fields fds sub; Ok (inl (PDict d))
      | KUser => e_ser E c fs
      | KEnum _ => Exn AttributeError
      | KNone => Exn TypeError
      end
  end.

(** 589-672 [BaseContext.serialize] (and 159-195 [serialize]). *)
Fixpoint ser (content_only : bool) (v : val) {struct v} : res pser :=
  match v with
  | VAtom a => Ok (PAtom a)
  | VList l => do l' <- map_res (ser false) l; Ok (PList l')
  | VTuple l => do l' <- map_res (ser false) l; Ok (PList l')
  | VDict d => do d' <- map_res (fun kv => do p <- ser false (snd kv); Ok (fst kv, p)) d; Ok (PDict d')
  | VInst i =>
      do x <- match inst_name (e_insts E) i with
              | Some n => finish n_instance (Ok (inl (PAtom (AStr n))))
              | None => finish [] (unserializable ($"object"))
              end;
      Ok (emit content_only x)
  | VInvalid i => Ok (emit content_only (ser_invalid i))
  | VEnum c m =>
      do x <- match obj_type c with
              | None => finish [] (unserializable (c_name (e_class E c)))
              | Some t =>
                  finish t (call_ser (c_name (e_class E c))
                    (match c_custom (e_class E c), c_kind (e_class E c) with
                     | None, KEnum _ => Ok (inl (PAtom (AStr (c_name (e_class E c) ++ $"." ++ m))))  (* 258-259 *)
                     | _, _ => e_ser E c [($"name", VAtom (AStr m))]
                     end))
              end;
      Ok (emit content_only x)
  | VObj c fs =>
      do x <- match obj_type c with
              | None => finish [] (unserializable (c_name (e_class E c)))
              | Some t =>
                  finish t (call_ser (c_name (e_class E c))
                    (obj_content c fs (map (fun kv => (fst kv, ser false (snd kv))) fs)))
              end;
      Ok (emit content_only x)
  end.

(** * Deserialization *)

(** The argument [expected] (674, 697, 735-759): absent, a type string, a class, an atomic type, list/tuple
    or dict (generic aliases included, 55-65). *)
Inductive expect := XNone | XStr (t : str) | XCls (c : tcls) | XAty (t : aty) | XList | XDict.

Definition assoc_a {A} (k : atom) (l : list (atom * A)) : option A :=
  (fix go (l : list (atom * A)) : option A :=
     match l with
     | [] => None
     | (x, v) :: r => if atom_eq_dec x k then Some v else go r
     end) l.

(** [cls( **res)] for a dataclass (255): every argument must be an init field, every init field
    without default must be given. *)
Fixpoint build (fs : list field) (args : list (str * val)) : res (list (str * val)) :=
  match fs with
  | [] => Ok []
  | f :: r =>
      do rest <- build r args;
      match (if f_init f then assoc (f_name f) args else None), f_default f with
      | Some v, _ => Ok ((f_name f, v) :: rest)
      | None, Some v => Ok ((f_name f, v) :: rest)
      | None, None => if f_init f then Exn TypeError else Ok rest
      end
  end.
Definition init_names (fs : list field) : list str := map f_name (filter f_init fs).
Definition construct (fs : list field) (args : list (str * val)) : res (list (str * val)) :=
  if forallb (fun a => member (fst a) (init_names fs)) args then build fs args else Exn TypeError.

(** [**d]: keyword names must be strings. *)
Definition str_key (a : atom) : res str := match a with AStr s => Ok s | _ => Exn TypeError end.

(** [dict.get(k)] read as an optional string (errors.py:177-179, 218-224; a non-string value is
    read as None, simplification). *)
Definition get_str (k : string) (d : list (atom * pser)) : option str :=
  match assoc_a (key k) d with Some (PAtom (AStr s)) => Some s | _ => None end.

(** 541-558 around a deserialize method (772-781). *)
Definition call_de (c : tcls) (p : pser) (r : res val) : res val :=
  match r with
  | Ok v => Ok v
  | Exn e => if is_ser_error e then Exn e
             else Ok (VInvalid (IExcUndeser (type2str E c) ($"Exception encountered while deserializing")
                                            (e_trace E e) p (type2str E c)))
  end.

Definition check (r : res val) : res val :=
  do v <- r;
  match v with
  | VInvalid _ => do _ <- process_invalid; Ok v
  | _ => Ok v
  end.

(** [deserialize] applied to an already deserialized value (464-465): plain data is rebuilt, anything
    else is reported (709-714; the offending object is not kept in the marker). *)
Fixpoint redeser (v : val) : res val :=
  match v with
  | VAtom a => Ok (VAtom a)
  | VList l => do l' <- map_res redeser l; Ok (VList l')
  | VTuple l => do l' <- map_res redeser l; Ok (VList l')
  | VDict d => do d' <- map_res (fun kv => do x <- redeser (snd kv); Ok (fst kv, x)) d; Ok (VDict d')
  | _ => check (Ok (VInvalid (IUndeser None ($"Unexpected type for serialized") (PAtom ANone) None)))
  end.

Notation dz := ((expect -> res val) * (tcls -> res val))%type.

Definition last_name (s : str) : str :=
  (fix go (cur s : str) : str :=
     match s with
     | [] => cur
     | c :: r => if ascii_dec c "." then go [] r else go (cur ++ [c]) r
     end) [] s.

(** 461-466 [Undeserializable.__deserialize__]; [self] is [deserialize(serialized)]. *)
Definition de_undeser (self : res val) : res val :=
  do v <- self;
  match v with
  | VDict d =>
      do args <- map_res (fun kv => do k <- str_key (fst kv); Ok (k, snd kv)) d;
      let names := map fst args in
      if forallb (fun n => member n [$"type"; $"info"; $"serialized"; $"expected"]) names
         && member ($"type") names && member ($"info") names
      then
        match assoc ($"serialized") args with
        | None | Some (VAtom ANone) => Ok (VInvalid (IUndeser None ($"Undeserializable") (PAtom ANone) None))
        | Some s =>
            match assoc ($"expected") args with
            | None | Some (VAtom ANone) => redeser s
            | Some _ => Exn AttributeError       (* passed as the context: 465 *)
            end
        end
      else Exn TypeError
  | _ => Exn TypeError
  end.

(** 491-496 [ExcUndeserializable.__deserialize__]; [kids] are the entries of the dict. *)
Definition de_exc_undeser (d : list (atom * pser)) (kids : list (atom * dz)) : res val :=
  do names <- map_res (fun kv => str_key (fst kv)) d;
  if forallb (fun n => member n [$"type"; $"info"; $"trace"; $"serialized"; $"expected"]) names
     && forallb (fun n => member n names) [$"type"; $"info"; $"trace"; $"serialized"; $"expected"]
  then
    match assoc_a (key "serialized") d with
    | None | Some (PAtom ANone) =>
        Ok (VInvalid (IExcUndeser (get_str "type" d) (match get_str "info" d with Some s => s | None => [] end)
                        (match assoc_a (key "trace") d with Some t => t | None => PAtom ANone end)
                        (PAtom ANone) (get_str "expected" d)))
    | Some _ =>
        match assoc_a (key "serialized") kids with
        | None => Exn KeyError   (* not reachable: same keys *)
        | Some k =>
            match assoc_a (key "expected") d with
            | Some (PAtom (AStr t)) => fst k (XStr t)
            | Some (PAtom ANone) => fst k XNone
            | _ => Ok (VInvalid (IUndeser None ($"Could not recover __deserialize__ method") (PAtom ANone) None))
            end
        end
    end
  else Exn TypeError.

(** 761-781 [deserialize_object]. *)
Definition de_object (p : pser) (kids : list (atom * dz)) (self : res val) (c : tcls) : res val :=
  match c with
  | CUser n =>
      match c_custom (e_class E n), c_kind (e_class E n) with
      | Some _, _ => call_de c p (e_de E n p)
      | None, KUser => call_de c p (e_de E n p)
      | None, KNone => Ok (VInvalid (IUndeser (Some (c_name (e_class E n))) ($"Could not recover __deserialize__ method") p None))
      | None, KEnum ms =>                                             (* 262-265 *)
          call_de c p
            match p with
            | PAtom (AStr s) => if member (last_name s) ms then Ok (VEnum n (last_name s)) else Exn KeyError
            | _ => Exn AttributeError
            end
      | None, KData fs =>                                             (* 249-255 *)
          call_de c p
            match p with
            | PDict d =>
                do vs <- map_res (fun kz => do v <- fst (snd kz) XNone; Ok (fst kz, v)) kids;
                do args <- map_res (fun kv => do k <- str_key (fst kv); Ok (k, snd kv)) vs;
                do fvs <- construct fs args;
                Ok (VObj n fvs)
            | _ => Exn AttributeError
            end
      end
  | CUnser =>                                                         (* errors.py:177-179 *)
      call_de c p match p with
        | PDict d => Ok (VInvalid (IUnser (get_str "type" d) (match get_str "info" d with Some s => s | None => [] end)))
        | _ => Exn AttributeError
        end
  | CExcUnser =>                                                      (* errors.py:218-224 *)
      call_de c p match p with
        | PDict d =>
            do tr <- e_parse_trace E (match assoc_a (key "trace") d with Some t => t | None => PAtom ANone end);
            Ok (VInvalid (IExcUnser (get_str "type" d) (match get_str "info" d with Some s => s | None => [] end) tr))
        | _ => Exn AttributeError
        end
  | CUndeser => call_de c p (de_undeser self)
  | CExcUndeser =>
      call_de c p match p with
        | PDict d => de_exc_undeser d kids
        | _ => Exn TypeError
        end
  | CInstance =>                                                      (* 391-393 *)
      call_de c p match p with
        | PAtom (AStr s) => match assoc s (e_insts E) with Some i => Ok (VInst i) | None => Exn KeyError end
        | PAtom _ => Exn KeyError
        | _ => Exn TypeError
        end
  end.

(** 795-802, 804-808 [deserialize_list], [deserialize_dict]; items that are atoms are kept. *)
Definition de_list (kids : list (pser * dz)) : res val :=
  do l <- map_res (fun qz => match fst qz with PAtom a => Ok (VAtom a) | _ => fst (snd qz) XNone end) kids;
  Ok (VList l).
Definition de_dict (kids : list (atom * dz)) : res val :=
  do d <- map_res (fun kz => do v <- fst (snd kz) XNone; Ok (fst kz, v)) kids;
  Ok (VDict d).

Definition cast_other (p : pser) (t : aty) : res val :=
  do o <- e_cast E t p;
  match o with
  | Some a => Ok (VAtom a)
  | None => Ok (VInvalid (IUndeser None ($"Specified type") p None))
  end.
(** 783-793 [deserialize_atomic]: the constructor of the type applied to a value; applied to a value
    of its own type it gives the value back, elsewhere it is left to the surroundings. *)
Definition de_atomic (p : pser) (t : aty) : res val :=
  match p with
  | PAtom a => if aty_eq_dec (aty_of a) t then Ok (VAtom a) else cast_other p t
  | _ => cast_other p t
  end.

(** 697-759 with [expected = None]; [serialized] is not None. *)
Definition inner_none (p : pser) (lkids : list (pser * dz)) (dkids : list (atom * dz)) : res val :=
  match p with
  | PAtom a => de_atomic p (aty_of a)
  | PList _ => de_list lkids
  | PDict d =>
      match assoc_a (AStr SER_TYPE) d with
      | None => de_dict dkids
      | Some (PAtom (AStr t)) =>
          match str2type E t with
          | None => Ok (VInvalid (IUndeser None ($"Unregistered type stored in serialized.")
                       (match assoc_a (AStr SER_CONTENT) d with Some q => q | None => PDict [] end) (Some t)))
          | Some c =>
              match assoc_a (AStr SER_CONTENT) dkids with
              | Some z => snd z c
              | None => de_object (PDict []) [] (Ok (VDict [])) c
              end
          end
      | Some (PAtom _) =>
          Ok (VInvalid (IUndeser None ($"Unregistered type stored in serialized.")
                 (match assoc_a (AStr SER_CONTENT) d with Some q => q | None => PDict [] end) None))
      | Some _ => Exn TypeError                      (* unhashable key of the registry *)
      end
  end.

(** 697-759 with [expected] given. *)
Definition inner_expected (p : pser) (lkids : list (pser * dz)) (dkids : list (atom * dz))
           (object : tcls -> res val) (x : expect) : res val :=
  match x with
  | XNone => inner_none p lkids dkids
  | XDict => match p with
             | PDict _ => de_dict dkids
             | PList _ | PAtom (AStr _) => Exn AttributeError
             | _ => Exn TypeError
             end
  | XList => match p with
             | PList _ => de_list lkids
             | PDict d => Ok (VList (map (fun kv => VAtom (fst kv)) d))
             | PAtom (AStr s) => Ok (VList (map (fun c => VAtom (AStr [c])) s))
             | _ => Exn TypeError
             end
  | XStr t => match str2type E t with
              | None => Ok (VInvalid (IUndeser None ($"Unregistered type provided as argument.") p (Some t)))
              | Some c => object c
              end
  | XAty t => de_atomic p t
  | XCls c => object c
  end.

Fixpoint deser_z (p : pser) : dz :=
  let lkids := match p with PList l => map (fun q => (q, deser_z q)) l | _ => [] end in
  let dkids := match p with PDict d => map (fun kq => (fst kq, deser_z (snd kq))) d | _ => [] end in
  let self := check (match p with PAtom ANone => Ok (VAtom ANone) | _ => inner_none p lkids dkids end) in
  let object := de_object p dkids self in
  (fun x => match p with
            | PAtom ANone => Ok (VAtom ANone)
            | _ => check (inner_expected p lkids dkids object x)
            end, object).

(** 674-695 [BaseContext.deserialize] (and 198-236 [deserialize]). *)
Definition deser (p : pser) (x : expect) : res val := fst (deser_z p) x.

End WithEnv.

(** * JSON text: [loads(dumps(p))] (dman/utils/sjson.py) *)

(** [str] of an int. *)
Definition str_of_Z (z : Z) : str :=
  match z with
  | Z0 => $"0"
  | Zpos p => str_of_N (Npos p)
  | Zneg p => "-"%char :: str_of_N (Npos p)
  end.
Section Json.
(** [repr] of a float. *)
Variable float_repr : Z -> str.
Definition json_key (a : atom) : str :=
  match a with
  | AStr s => s
  | AInt z => str_of_Z z
  | AFloat f => float_repr f
  | ABool true => $"true"
  | ABool false => $"false"
  | ANone => $"null"
  end.
Definition json_atom (a : atom) : json :=
  match a with
  | ANone => JNull | ABool b => JBool b | AInt z => JInt z | AFloat f => JFloat f | AStr s => JStr s
  end.
(** A repeated key keeps its first position and its last value. *)
Definition json_object {A} (d : list (str * A)) : list (str * A) :=
  fold_left (fun acc kv => assoc_set (fst kv) (snd kv) acc) d [].
Fixpoint to_json (p : pser) : json :=
  match p with
  | PAtom a => json_atom a
  | PList l => JList (map to_json l)
  | PDict d => JDict (json_object (map (fun kv => (json_key (fst kv), to_json (snd kv))) d))
  end.
Fixpoint of_json (j : json) : pser :=
  match j with
  | JNull => PAtom ANone
  | JBool b => PAtom (ABool b)
  | JInt z => PAtom (AInt z)
  | JFloat f => PAtom (AFloat f)
  | JStr s => PAtom (AStr s)
  | JList l => PList (map of_json l)
  | JDict d => PDict (map (fun kv => (AStr (fst kv), of_json (snd kv))) d)
  end.
Definition through_json (p : pser) : pser := of_json (to_json p).
End Json.

(** 413-418 [register_instance]: an entry of a dict; overwriting keeps the position of the name. *)
Definition register_instance (insts : list (str * nat)) (call : str * nat) : list (str * nat) :=
  assoc_set (fst call) (snd call) insts.

(** * isvalid (499-505); [issubclass(None, ...)] is a TypeError *)
Definition isvalid (E : env) (v : val) : res bool :=
  match v with
  | VInvalid _ => Ok false
  | VDict d =>
      match assoc_a (AStr SER_TYPE) d with
      | Some (VAtom (AStr t)) =>
          match str2type E t with
          | Some (CUser _) | Some CInstance => Ok true
          | Some _ => Ok false
          | None => Exn TypeError
          end
      | _ => Exn TypeError
      end
  | _ => Ok true
  end.
