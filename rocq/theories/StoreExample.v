(** A small installation used by the examples next to the theorems. *)
From Coq Require Import List Ascii String Bool Arith ZArith.
From Verif Require Import Base PosixModel FsModel PathModel SerialModel StoreModel StoreSpec.
Import ListNotations.

(** Class 0: a storable class "blob" with its own write and read method.  Class 1: a modelclass "pair",
    serializable and storable, with a plain field "name", a record field "data" and a field "tmp" that is not
    serialized. *)
Definition ex_fields : list mfield :=
  [mkMField ($"name") None false None;
   mkMField ($"data") (Some (mkTarget (Some ($"")) (Some ($"data")) None, false)) false None;
   mkMField ($"tmp") None true (Some (OAtom (AInt 7)))].
Definition ex_class (c : nat) : sclass :=
  match c with
  | 0 => mkSClass (SLeaf false (Some ($".bin"))) None (Some ($"_sto__blob"))
  | _ => mkSClass (SModel ex_fields) (Some ($"_ser__pair")) (Some ($"_sto__pair"))
  end.
Definition ex_env (retouch : string) (validate : bool) (limit : option nat) : senv :=
  mkSenv ex_class
    (fun t => if str_eq_dec t ($"_ser__pair") then Some 1 else None)
    (fun t => if str_eq_dec t ($"_sto__blob") then Some 0 else if str_eq_dec t ($"_sto__pair") then Some 1 else None)
    (fun _ _ d => (Some (Text d), None))
    (fun _ _ c => match c with Text d => Ok d | Json _ => Exn ValueError end)
    (fun k => $"uuid" ++ str_of_N (N.of_nat k))
    (fun _ => $"0.0") ($"/proj") ($retouch) validate true ($".sto") limit.
Definition blob (s : string) : obj := OLeaf 0 ($s).
Definition rec_of (o : obj) (stem : string) : obj := ORec o (mkTarget (Some []) (Some ($stem)) None) false None None.
(** A pair holding a record, an mlist with two records that collide, and a plain list with a storable. *)
Definition ex_model : obj :=
  OModel 1
    [($"name", OList [OAtom (AInt 3); blob "raw"]);
     ($"data", rec_of (OSeq (mkSeq true [] false None) [rec_of (blob "one") "x"; rec_of (blob "two") "x"] []) "data");
     ($"tmp", OAtom (AInt 9))] [].
Definition ex_opts : opts := mkOpts ($"/proj/.dman") ($"gen") ($"") true true.
(** /proj/.dman/gen/old holds data saved earlier. *)
Definition ex_fs : node :=
  Dir [($"proj", Dir [($".dman", Dir [($"gen", Dir [($"old", Dir [($"old.json", File (Json (JInt 1)))])])])])].
Definition ex_world : world := mkWorld ex_fs [] [] 0 [].
(** Another write and read method. *)
Definition with_methods (E : senv) (wr : nat -> nat -> str -> option content * option exn) (rd : nat -> nat -> content -> res str) : senv :=
  mkSenv (s_class E) (s_ser E) (s_sto E) wr rd (s_uuid E) (s_float E) (s_cwd E) (s_retouch E) (s_validate E) (s_clean E) (s_suffix E) (s_limit E).
(** Keys "k" and "m" opened; k/x.bin holds "b". *)
Definition ex_two : world :=
  mkWorld (Dir [($"proj", Dir [($".dman", Dir [($"gen", Dir [($"k", Dir [($"x.bin", File (Text ($"b")))])])])])])
    [new_mount ($"/proj/.dman/gen/k") true true; new_mount ($"/proj/.dman/gen/m") true true] [] 0 [].
