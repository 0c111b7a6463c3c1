(** Model of [is_deserializable] (serializables.py:106-119). *)
From Coq Require Import Ascii String List Bool Arith ZArith.
From Verif Require Import Base SerialModel.
Import ListNotations.

(** [bool(x)] of serialized data (116). *)
Definition truthy (p : pser) : bool :=
  match p with
  | PAtom ANone => false
  | PAtom (ABool b) => b
  | PAtom (AInt z) => negb (Z.eqb z 0)
  | PAtom (AFloat f) => negb (Z.eqb f 0)
  | PAtom (AStr s) => match s with [] => false | _ => true end
  | PList l => match l with [] => false | _ => true end
  | PDict d => match d with [] => false | _ => true end
  end.
(** 106-119; [ser in __serializable_types] (103) is a TypeError for lists and dicts, which are not hashable.
    Simplification: floats are numbered as in SerialModel, 0 standing for 0.0. *)
Definition is_deserializable (E : env) (p : pser) : res bool :=
  match p with
  | PAtom _ | PList _ => Ok true
  | PDict d =>
      match assoc_a (AStr SER_TYPE) d with
      | None => Ok false
      | Some t =>
          if truthy t then
            match t with
            | PAtom (AStr s) => Ok (is_type_str E (Some s))
            | PAtom _ => Ok false
            | _ => Exn TypeError
            end
          else Ok false
      end
  end.
