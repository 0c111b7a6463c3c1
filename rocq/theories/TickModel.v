(** Model of [SVGLogFormatter] (plotting.py:40-80): the labels of the ticks of a logarithmic axis in an SVG figure.
    Simplifications: numbers are rationals (no nan, no infinity); the quotient of logarithms, the power that gives the leading
    digit and the printing of numbers are parameters; [is_close_to_int] of matplotlib compares with the nearest integer up to
    a tolerance, which is a parameter. *)
From Coq Require Import Ascii String List Bool ZArith QArith Qround Qabs.
From Verif Require Import Base.
Import ListNotations.

(** Python's [round]: ties go to the even neighbour. *)
Definition rnd (x : Q) : Z :=
  let f := Qfloor x in
  match Qcompare (x - inject_Z f) (1 # 2) with
  | Lt => f
  | Gt => (f + 1)%Z
  | Eq => if Z.even f then f else (f + 1)%Z
  end.
Record formatter := mkF { base : Q; label_only_base : bool; sublabels : option (list Z) }.

Section Tick.
Variable log_ratio : Q -> Q -> Q.       (* math.log(x) / math.log(b) *)
Variable digit : Q -> Q -> Z.           (* round(b ** e) *)
Variable tol : Q.
Variables (show_d : Z -> str) (show_s show_g : Q -> str).

(** matplotlib.ticker.is_close_to_int *)
Definition close_to_int (x : Q) : bool := negb (Qle_bool tol (Qabs (x - inject_Z (rnd x)))).
(** 41-43: takes four arguments besides [self]; a call with another number of arguments is a TypeError. *)
Definition non_decade_format (args : list str) : res str :=
  match args with
  | [sign; b; fx; _] => Ok ($"\$" ++ sign ++ b ++ $"^{" ++ fx ++ $"}\$")
  | _ => Exn TypeError
  end.
(** 45-80 *)
Definition tick (f : formatter) (min_exp : Q) (x : Q) : res str :=
  if Qeq_bool x 0 then Ok ($"\$0\$")                                                        (* 49-50 *)
  else
    let sign := if Qle_bool 0 x then [] else $"-" in                                        (* 52 *)
    let x := Qabs x in
    let b := base f in
    let fx := log_ratio x b in                                                              (* 57 *)
    let decade := close_to_int fx in
    let exponent := if decade then rnd fx else Qfloor fx in
    let coeff := digit b (fx - inject_Z exponent) in
    let n := rnd fx in
    let fx := if decade then inject_Z n else fx in                                          (* 61-62 *)
    if label_only_base f && negb decade then Ok []                                          (* 64-65 *)
    else if match sublabels f with Some l => negb (existsb (Z.eqb coeff) l) | None => false end then Ok []
    else
      let bs := if Qeq_bool (b - inject_Z (Qfloor b)) 0 then show_d (Qfloor b) else show_s b in
      if negb (Qle_bool min_exp (Qabs fx)) then Ok ($"\$" ++ sign ++ show_g x ++ $"\$")     (* 75-76 *)
      else if negb decade then non_decade_format [sign; bs; show_g fx]                      (* 77-78: three arguments *)
      else Ok ($"\$" ++ sign ++ bs ++ $"^{" ++ show_d n ++ $"}\$").
End Tick.
