(** What a user sees of a model, and models that were built in memory: the vocabulary of the round trip. *)
From Coq Require Import List Ascii String Bool Arith ZArith.
From Verif Require Import Base PosixModel FsModel PathModel SerialModel StoreModel PathSpec MountSpec DirSpec StoreSpec.
Import ListNotations.

(** What is seen when all contents are accessed.  Records are transparent; a modelclass instance shows its serialized
    fields; a list (dict) and an mlist (mdict) without options and with the same items count as the same: dman itself
    stores the former as the latter when it has storable items (record.py:195-226). *)
Inductive tree :=
| TAtom (a : atom)
| TList (l : list tree)
| TDict (d : list (atom * tree))
| TLeaf (c : nat) (data : str)
| TModel (c : nat) (fs : list (str * tree))
| TSeq (q : seqcfg) (l : list tree)
| TMap (p : mapcfg) (l : list (str * tree)).

Definition seq_tree (q : seqcfg) (l : list tree) : tree :=
  match q with mkSeq false [] false None => TList l | _ => TSeq q l end.
Definition map_tree (p : mapcfg) (l : list (str * tree)) : tree :=
  match p with mkMap false [] false false false => TDict (map (fun kv => (AStr (fst kv), snd kv)) l) | _ => TMap p l end.

(** A program that accesses everything: [k] bounds the depth of one access to a record, [n] the depth of the model. *)
Fixpoint view (E : senv) (k n : nat) (o : obj) : M tree :=
  match n with
  | 0 => raise OutOfFuel
  | S n =>
      x <- content_of E k o;;
      match fst x with
      | OAtom a => ret (TAtom a)
      | OList l => ts <- mapM (view E k n) l;; ret (TList ts)
      | ODict d => ts <- mapM (fun kv => t <- view E k n (snd kv);; ret (fst kv, t)) d;; ret (TDict ts)
      | OLeaf c d => ret (TLeaf c d)
      | OModel c fs _ =>
          match k_kind (s_class E c) with
          | SModel fds =>
              ts <- mapM (fun f => match assoc (mf_name f) fs with
                                   | Some v => t <- view E k n v;; ret (mf_name f, t)
                                   | None => raise AttributeError
                                   end) (filter (fun f => negb (mf_noser f)) fds);;
              ret (TModel c ts)
          | SLeaf _ _ => raise TypeError
          end
      | OSeq q s _ => ts <- mapM (view E k n) s;; ret (seq_tree q ts)
      | OMap p s _ => ts <- mapM (fun kv => t <- view E k n (snd kv);; ret (fst kv, t)) s;; ret (map_tree p ts)
      | _ => raise ValueError
      end
  end.

(** However its missing parts are filled in, the target names an ordinary file. *)
Definition ordinary (E : senv) (content : obj) (t : target) : Prop :=
  forall sd st su,
    t_subdir t = Some sd \/ t_subdir t = None /\ sd = [] ->
    t_stem t = Some st \/ t_stem t = None /\ (exists k, st = s_uuid E k) ->
    t_suffix t = Some su \/ t_suffix t = None /\ usual_suffix E content su ->
    plain (st ++ su) /\ ~ absolute sd /\ no_dotdot sd.

(** A model as a program builds it: all contents in memory, no record marked as failed, nothing deleted or replaced
    since the last save. *)
Inductive built (E : senv) : obj -> Prop :=
| b_atom a : built E (OAtom a)
| b_list l : (forall x, In x l -> built E x) -> built E (OList l)
| b_dict d : (forall k x, In (k, x) d -> (exists s, k = AStr s /\ s <> SER_TYPE) /\ built E x) -> NoDup (map fst d) -> built E (ODict d)
| b_leaf c d j ext ty : k_kind (s_class E c) = SLeaf j ext -> k_sto (s_class E c) = Some ty -> built E (OLeaf c d)
| b_model c fs fds : k_kind (s_class E c) = SModel fds -> NoDup (map mf_name fds) ->
    (forall f v, In f fds -> mf_noser f = false -> assoc (mf_name f) fs = Some v ->
       built E v /\ (v = OAtom ANone -> mf_default f = None \/ mf_default f = Some (OAtom ANone))) ->
    built E (OModel c fs [])
| b_seq q s : (forall x, In x s -> built E x) -> built E (OSeq q s [])
| b_map p s : (forall k x, In (k, x) s -> built E x) -> NoDup (map fst s) -> built E (OMap p s [])
| b_rec content t pre : built E content -> ordinary E content t -> built E (ORec content t pre None None).

(** Names of registered classes lead back to them; uuids make ordinary file names; whenever a [__write__] returns it has
    left a file from which [__read__] gets the data back. *)
Definition registered_classes (E : senv) : Prop :=
  (forall c fds n, k_kind (s_class E c) = SModel fds -> k_ser (s_class E c) = Some n -> ser_ty E n = Some (DModel c)) /\
  (forall c n, k_sto (s_class E c) = Some n ->
     sto_ty E n = Some (match k_kind (s_class E c) with SLeaf _ _ => STLeaf c | SModel _ => STObj (DModel c) end)).
Definition ordinary_uuids (E : senv) : Prop :=
  forall k content su, usual_suffix E content su -> plain (s_uuid E k ++ su).
Definition faithful_methods (E : senv) : Prop :=
  forall c k d left, s_write E c k d = (left, None) -> exists x, left = Some x /\ forall k', s_read E c k' x = Ok d.

(** Another run of the same program: same classes, [__read__] methods and working directory; configuration, uuids and
    state of the outside world may differ. *)
Definition same_code (E E2 : senv) : Prop :=
  s_class E2 = s_class E /\ s_ser E2 = s_ser E /\ s_sto E2 = s_sto E /\ s_read E2 = s_read E /\ s_cwd E2 = s_cwd E.
