(** When an object in memory is, for a program that uses it, the object it was before. *)
From Coq Require Import List Ascii String Bool Arith ZArith.
From Verif Require Import Base PathModel SerialModel StoreModel KeepSpec.
Import ListNotations.

(** The same values at the same places and in the same order; records hold the same contents and did not fail, but may have
    got other names in the same sub directory; those that wait for their first access wait for the same file; [M]
    and [C] say what may happen to the lists of deleted items of models and of containers; in [same_object], anything. *)
Inductive same_with (M C : list obj -> list obj -> Prop) : obj -> obj -> Prop :=
| so_same o : same_with M C o o
| so_list l l' : Forall2 (same_with M C) l l' -> same_with M C (OList l) (OList l')
| so_dict d d' : Forall2 (fun a b => fst a = fst b /\ same_with M C (snd a) (snd b)) d d' -> same_with M C (ODict d) (ODict d')
| so_model c fs fs' u u' : M u u' -> Forall2 (fun a b => fst a = fst b /\ same_with M C (snd a) (snd b)) fs fs' -> same_with M C (OModel c fs u) (OModel c fs' u')
| so_seq q s s' u u' : C u u' -> Forall2 (same_with M C) s s' -> same_with M C (OSeq q s u) (OSeq q s' u')
| so_map p s s' u u' : C u u' -> Forall2 (fun a b => fst a = fst b /\ same_with M C (snd a) (snd b)) s s' -> same_with M C (OMap p s u) (OMap p s' u')
| so_rec c c' t t' pre : same_with M C c c' -> sub_of t' = sub_of t -> same_with M C (ORec c t pre None None) (ORec c' t' pre None None)
| so_waiting ty tt b cx t pre : same_with M C (ORec (OUnloaded ty tt b cx) t pre None None) (ORec (OUnloaded ty tt b cx) tt pre None None).
Definition same_object : obj -> obj -> Prop := same_with (fun _ _ => True) (fun _ _ => True).
