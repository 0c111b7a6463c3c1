(** Vocabulary for the statements about serialization, independent of how the model computes. *)
From Coq Require Import List Ascii String Bool Arith ZArith Lia.
From Verif Require Import Base FsModel SerialModel.
Import ListNotations.

(** Tuples come back as lists. *)
Fixpoint untuple (v : val) : val :=
  match v with
  | VList l => VList (map untuple l)
  | VTuple l => VList (map untuple l)
  | VDict d => VDict (map (fun kv => (fst kv, untuple (snd kv))) d)
  | VObj c fs => VObj c (map (fun kv => (fst kv, untuple (snd kv))) fs)
  | _ => v
  end.

Definition marker_names : list str := [n_unser; n_exc_unser; n_undeser; n_exc_undeser].
Definition reserved_names : list str := n_instance :: marker_names.

(** Class [c] was decorated with [@serializable] under the name [t]. *)
Definition registered (E : env) (c : nat) (t : str) : Prop :=
  c_type (e_class E c) = Some t /\ c_custom (e_class E c) = None /\
  e_types E t = Some c /\ ~ In t reserved_names.

(** The attributes [fs] of an instance of a dataclass with fields [fds]: one attribute per field, in
    order; every field is an argument of [__init__]; an attribute that is not serialized has its
    default value (and no tuples in it). *)
Definition instance_of (fds : list field) (fs : list (str * val)) : Prop :=
  NoDup (map f_name fds) /\
  Forall2 (fun f kv => fst kv = f_name f /\ f_init f = true /\
             (f_noser f = true -> f_default f = Some (snd kv) /\ untuple (snd kv) = snd kv)) fds fs.

(** Plain data: atoms, lists, tuples, dicts with string keys, dataclass instances, registered
    objects, Enum members. *)
Inductive plain (E : env) : val -> Prop :=
| plain_atom a : plain E (VAtom a)
| plain_list l : (forall x, In x l -> plain E x) -> plain E (VList l)
| plain_tuple l : (forall x, In x l -> plain E x) -> plain E (VTuple l)
| plain_dict d :
    (forall k x, In (k, x) d -> exists s, k = AStr s /\ s <> SER_TYPE) -> NoDup (map fst d) ->
    (forall k x, In (k, x) d -> plain E x) -> plain E (VDict d)
| plain_obj c t fds fs :
    registered E c t -> c_kind (e_class E c) = KData fds -> instance_of fds fs ->
    (forall f k x, In (f, (k, x)) (combine fds fs) -> f_noser f = false -> plain E x) ->
    plain E (VObj c fs)
| plain_inst n i : NoDup (map fst (e_insts E)) -> In (n, i) (e_insts E) -> plain E (VInst i)
| plain_enum c t ms m :
    registered E c t -> c_kind (e_class E c) = KEnum ms -> In m ms -> ~ In "."%char m ->
    plain E (VEnum c m).

(** A serialized value that is its own JSON text: string keys, no repetitions. *)
Inductive json_ready : pser -> Prop :=
| jr_atom a : json_ready (PAtom a)
| jr_list l : (forall x, In x l -> json_ready x) -> json_ready (PList l)
| jr_dict d :
    (forall k x, In (k, x) d -> exists s, k = AStr s) -> NoDup (map fst d) ->
    (forall k x, In (k, x) d -> json_ready x) -> json_ready (PDict d).

(** * Positions *)

(** A value with one part left open: inside lists, tuples, dicts and serialized fields of dataclass
    instances. *)
Inductive vctx :=
| XHole
| XInList (before : list val) (x : vctx) (after : list val)
| XInTuple (before : list val) (x : vctx) (after : list val)
| XInDict (before : list (atom * val)) (k : atom) (x : vctx) (after : list (atom * val))
| XInObj (c : nat) (before : list (str * val)) (k : str) (x : vctx) (after : list (str * val)).
Fixpoint fill (x : vctx) (v : val) : val :=
  match x with
  | XHole => v
  | XInList b x a => VList (b ++ fill x v :: a)
  | XInTuple b x a => VTuple (b ++ fill x v :: a)
  | XInDict b k x a => VDict (b ++ (k, fill x v) :: a)
  | XInObj c b k x a => VObj c (b ++ (k, fill x v) :: a)
  end.

(** The same for serialized values. *)
Inductive pctx :=
| YHole
| YInList (before : list pser) (y : pctx) (after : list pser)
| YInDict (before : list (atom * pser)) (k : atom) (y : pctx) (after : list (atom * pser)).
Fixpoint pfill (y : pctx) (p : pser) : pser :=
  match y with
  | YHole => p
  | YInList b y a => PList (b ++ pfill y p :: a)
  | YInDict b k y a => PDict (b ++ (k, pfill y p) :: a)
  end.

(** * How a class is serialized *)

(** The class [c] is known to dman, by [register_serializable] with methods or by its type string. *)
Definition known (E : env) (c : nat) : Prop :=
  c_custom (e_class E c) <> None \/
  exists t, c_type (e_class E c) = Some t /\ (e_types E t <> None \/ In t reserved_names).
(** By a method of the user; field by field; as Enum member; not at all. *)
Definition by_user (E : env) (c : nat) : Prop :=
  c_custom (e_class E c) <> None \/ known E c /\ c_kind (e_class E c) = KUser.
Definition by_fields (E : env) (c : nat) (fds : list field) : Prop :=
  known E c /\ c_custom (e_class E c) = None /\ c_kind (e_class E c) = KData fds.
Definition by_name (E : env) (c : nat) : Prop :=
  known E c /\ c_custom (e_class E c) = None /\ exists ms, c_kind (e_class E c) = KEnum ms.
Definition no_method (E : env) (c : nat) : Prop :=
  known E c /\ c_custom (e_class E c) = None /\
  (c_kind (e_class E c) = KNone \/ exists ms, c_kind (e_class E c) = KEnum ms).

(** The open part is one that serialization visits: on the way only lists, tuples, dicts and
    serialized fields of dataclass instances that have all their attributes. *)
Fixpoint visited (E : env) (x : vctx) : Prop :=
  match x with
  | XHole => True
  | XInList _ x _ => visited E x
  | XInTuple _ x _ => visited E x
  | XInDict _ _ x _ => visited E x
  | XInObj c b k x a =>
      visited E x /\ ~ In k (map fst b) /\
      exists fds f, by_fields E c fds /\ NoDup (map f_name fds) /\
        In f fds /\ f_name f = k /\ f_noser f = false /\
        (forall g, In g fds -> f_noser g = false -> In (f_name g) (map fst b ++ k :: map fst a))
  end.

(** The exceptions that dman does not contain: SerializationError and its subclasses, and those that are no [Exception]. *)
Definition escapes (e : exn) : bool :=
  match e with
  | SerializationError | ValidationError | StoreError => true
  | KeyboardInterrupt | Crash | OutOfFuel => true
  | _ => false
  end.
(** User code raises only exceptions that dman contains: no SerializationError (or subclass), no
    KeyboardInterrupt. *)
Definition tame (E : env) : Prop :=
  (forall c fs e, e_ser E c fs = Exn e -> escapes e = false) /\
  (forall c p e, e_de E c p = Exn e -> escapes e = false) /\
  (forall p e, e_parse_trace E p = Exn e -> escapes e = false) /\
  (forall t p e, e_cast E t p = Exn e -> escapes e = false).

(** * Objects that cannot be serialized *)
Inductive unserializable_obj (E : env) : val -> Prop :=
| uo_unknown c fs : ~ known E c -> unserializable_obj E (VObj c fs)
| uo_enum_unknown c m : ~ known E c -> unserializable_obj E (VEnum c m)
| uo_inst i : (forall n, ~ In (n, i) (e_insts E)) -> unserializable_obj E (VInst i)
| uo_raise c fs e : by_user E c -> e_ser E c fs = Exn e -> escapes e = false -> unserializable_obj E (VObj c fs)
| uo_enum_raise c m e : known E c -> ~ by_name E c -> e_ser E c [($"name", VAtom (AStr m))] = Exn e ->
    escapes e = false -> unserializable_obj E (VEnum c m)
| uo_no_method c fs : no_method E c -> unserializable_obj E (VObj c fs)
| uo_attr c fds fs f :
    by_fields E c fds -> In f fds -> f_noser f = false -> ~ In (f_name f) (map fst fs) ->
    unserializable_obj E (VObj c fs).

(** What stands at the position of such an object. *)
Inductive marker (p : pser) : Prop :=
| mk_marker t content : In t marker_names -> p = typed t content -> marker p.

(** Some part met by serialization cannot be serialized, or the user's method returned a marker. *)
Inductive hits (E : env) : val -> Prop :=
| hits_here v : unserializable_obj E v -> hits E v
| hits_result c fs i : by_user E c -> e_ser E c fs = Ok (inr i) -> hits E (VObj c fs)
| hits_enum_result c m i : known E c -> ~ by_name E c -> e_ser E c [($"name", VAtom (AStr m))] = Ok (inr i) ->
    hits E (VEnum c m)
| hits_list l x : In x l -> hits E x -> hits E (VList l)
| hits_tuple l x : In x l -> hits E x -> hits E (VTuple l)
| hits_dict d k x : In (k, x) d -> hits E x -> hits E (VDict d)
| hits_field c fds fs f x :
    by_fields E c fds -> In f fds -> f_noser f = false ->
    assoc (f_name f) fs = Some x -> hits E x -> hits E (VObj c fs).

(** * Markers in deserialized values *)
Inductive has_marker : val -> Prop :=
| hm_here i : has_marker (VInvalid i)
| hm_list l x : In x l -> has_marker x -> has_marker (VList l)
| hm_tuple l x : In x l -> has_marker x -> has_marker (VTuple l)
| hm_dict d k x : In (k, x) d -> has_marker x -> has_marker (VDict d)
| hm_obj c fs k x : In (k, x) fs -> has_marker x -> has_marker (VObj c fs).

(** User code and field defaults do not hide markers inside other values. *)
Definition open_markers (E : env) : Prop :=
  (forall c p v, e_de E c p = Ok v -> has_marker v -> exists i, v = VInvalid i) /\
  (forall c fds f v, c_kind (e_class E c) = KData fds -> In f fds -> f_default f = Some v -> ~ has_marker v).

(** The type string [t] occurs in serialized data. *)
Inductive mentions (t : str) : pser -> Prop :=
| me_here : mentions t (PAtom (AStr t))
| me_list l x : In x l -> mentions t x -> mentions t (PList l)
| me_dict d k x : In (k, x) d -> mentions t x -> mentions t (PDict d).

(** * Reloading: deserialize what was stored and serialize the result again (validate off) *)
Inductive reloads (float_repr : Z -> str) : list env -> pser -> pser -> Prop :=
| rl_nil s : reloads float_repr [] s s
| rl_cons E Es s v s' s'' :
    deser E false s XNone = Ok v -> ser E false false v = Ok s' ->
    reloads float_repr Es (through_json float_repr s') s'' ->
    reloads float_repr (E :: Es) s s''.

(** In [E] the type [t] is registered and its class cannot be built from [p]. *)
Inductive rejects (E : env) (t : str) (p : pser) : Prop :=
| rj_user c e : registered E c t -> c_kind (e_class E c) = KUser ->
    e_de E c p = Exn e -> escapes e = false -> rejects E t p
| rj_enum c ms s : registered E c t -> c_kind (e_class E c) = KEnum ms ->
    p = PAtom (AStr s) -> ~ In "."%char s -> ~ In s ms -> rejects E t p
| rj_not_dict c fds : registered E c t -> c_kind (e_class E c) = KData fds ->
    (forall d, p <> PDict d) -> rejects E t p
| rj_extra c fds d k x : registered E c t -> c_kind (e_class E c) = KData fds ->
    p = PDict d -> In (AStr k, x) d -> (forall f, In f fds -> f_init f = true -> f_name f <> k) -> rejects E t p
| rj_missing c fds d f : registered E c t -> c_kind (e_class E c) = KData fds ->
    p = PDict d -> In f fds -> f_init f = true -> f_default f = None -> ~ In (AStr (f_name f)) (map fst d) ->
    rejects E t p.

(** * Positions in serialized data that deserialization visits *)

(** The neighbours of the position can be read (possibly as markers). *)
Definition readable (E : env) (q : pser) : Prop := exists v, deser E false q XNone = Ok v.
Inductive reads (E : env) : pctx -> Prop :=
| rd_hole : reads E YHole
| rd_list b y a : reads E y -> (forall q, In q (b ++ a) -> readable E q) -> reads E (YInList b y a)
| rd_dict b k y a : reads E y -> (forall kq, In kq (b ++ a) -> readable E (snd kq)) ->
    ~ In (AStr SER_TYPE) (map fst b ++ k :: map fst a) -> reads E (YInDict b k y a)
| rd_obj c t fds b k y a f :
    registered E c t -> c_kind (e_class E c) = KData fds -> NoDup (map f_name fds) -> reads E y ->
    (forall kq, In kq (b ++ a) -> readable E (snd kq)) ->
    In f fds -> f_init f = true -> f_name f = k -> ~ In (AStr k) (map fst b) ->
    (* every key is an argument of the class *)
    (forall n, In n (map fst b ++ AStr k :: map fst a) ->
       exists g, In g fds /\ f_init g = true /\ n = AStr (f_name g)) ->
    (* every argument without default is given *)
    (forall g, In g fds -> f_init g = true -> f_default g = None ->
       In (AStr (f_name g)) (map fst b ++ AStr k :: map fst a)) ->
    reads E (YInDict [(AStr SER_TYPE, PAtom (AStr t))] (AStr SER_CONTENT) (YInDict b (AStr k) y a) []).

(** Traces are JSON data. *)
Definition json_traces (E : env) : Prop := forall e, json_ready (e_trace E e).

(** The entries of a dict with the last value of each key. *)
Definition last_value {A} (k : str) (l : list (str * A)) : option A := assoc k (rev l).

(** A history of calls [register_instance(obj, name=...)]: 414-417. *)
Inductive held (h : list (str * nat)) (n : str) (i : nat) : Prop :=
| held_last before after : h = before ++ (n, i) :: after -> ~ In n (map fst after) -> held h n i.

(** The type of an atomic value. *)
Definition atom_type (a : atom) : aty :=
  match a with AStr _ => TStr | AInt _ => TInt | AFloat _ => TFloat | ABool _ => TBool | ANone => TNone end.
(** The type to pass as [expected] when the content of [v] was stored without type. *)
Definition type_of (v : val) : expect :=
  match v with
  | VAtom a => XAty (atom_type a)
  | VList _ | VTuple _ => XList
  | VDict _ => XDict
  | VObj c _ | VEnum c _ => XCls (CUser c)
  | VInst _ => XCls CInstance
  | VInvalid _ => XNone
  end.

(** The surroundings after a history of calls of [register_instance], nothing else changed. *)
Definition with_instances (E : env) (h : list (str * nat)) : env :=
  mkEnv (e_class E) (e_types E) (fold_left register_instance h []) (e_ser E) (e_de E) (e_trace E) (e_parse_trace E) (e_cast E).

(** [n] was introduced before [m] in the history. *)
Definition introduced_before (h : list (str * nat)) (n m : str) : Prop :=
  exists b i a, h = b ++ (n, i) :: a /\ ~ In m (map fst b) /\ n <> m.
