(** Tracking an object with a file: the class [Track] of dman/model/repository.py and the [with] statement. *)
From Coq Require Import List Ascii String Bool Arith ZArith.
From Verif Require Import Base PosixModel FsModel PathModel SerialModel StoreModel.
Import ListNotations.

(** repository.py:386-407.  [tk_content]: the attribute [_content], None at first. *)
Record trk := mkTrk { tk_key : str; tk_opts : opts; tk_default : option obj; tk_factory : option obj; tk_content : obj }.
Definition new_track (k : str) (p : opts) (d df : option obj) : trk := mkTrk k p d df (OAtom ANone).
Definition holding (t : trk) (o : obj) : trk := mkTrk (tk_key t) (tk_opts t) (tk_default t) (tk_factory t) o.

(** A method: what it returns or raises, and the object after the call. *)
Definition meth (A : Type) := trk -> world -> (res A * trk) * world.

Section Track.
Variable E : senv.
Variable n : nat.
(** repository.py:428-439 [load]. *)
Definition tk_load : meth obj := fun t w =>
  match load E n (tk_opts t) (tk_key t) (tk_default t) (tk_factory t) w with
  | (Ok o, w') => ((Ok o, holding t o), w')
  | (Exn e, w') => ((Exn e, t), w')
  end.
(** repository.py:409-413 [content]. *)
Definition tk_get : meth obj := fun t w =>
  match tk_content t with
  | OAtom ANone => tk_load t w
  | o => ((Ok o, t), w)
  end.
(** repository.py:415-427 [save].  The record that [save] puts around a storable object is not kept; the object itself is the
    one that was serialized.  When [save] raises, the object may have been serialized in part; only what it held before
    is remembered here (simplification). *)
Definition saved_content (o o' : obj) : obj :=
  if is_serializable E o then o' else match o' with ORec c _ _ _ _ => c | _ => o end.
Definition tk_save (unload : bool) : meth obj := fun t w =>
  match save E n (tk_opts t) (tk_key t) (tk_content t) w with
  | (Ok (o', _), w') =>
      let t' := holding t (saved_content (tk_content t) o') in
      if unload then tk_load t' w' else ((Ok (OAtom ANone), t'), w')
  | (Exn e, w') => ((Exn e, t), w')
  end.
(** repository.py:441-446 [__enter__], [__exit__]. *)
Definition tk_enter : meth obj := tk_load.
Definition tk_exit : meth obj := tk_save false.

(** [bool(x)] of what [__exit__] returned; only used with None (simplification: other objects count as true). *)
Definition truth (o : obj) : bool := match o with OAtom ANone => false | _ => true end.
(** The [with] statement of Python (language reference 8.5) with a [Track] as manager.  The block gets the object that the
    manager holds and may change it in place: it is a function from the object to the object afterwards and the exception
    it was left with, if any (leaving by return, break or continue counts as none). *)
Definition block := obj -> world -> (obj * option exn) * world.
Definition with_track (t : trk) (body : block) (w : world) : (option exn * trk) * world :=
  match tk_enter t w with
  | ((Exn e, t1), w1) => ((Some e, t1), w1)
  | ((Ok o, t1), w1) =>
      let '((o1, out), w2) := body o w1 in
      match tk_exit (holding t1 o1) w2 with
      | ((Exn e, t3), w3) => ((Some e, t3), w3)
      | ((Ok v, t3), w3) => ((match out with Some e => if truth v then None else Some e | None => None end, t3), w3)
      end
  end.
End Track.
