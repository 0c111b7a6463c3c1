(** Model of [SVGFigure.__write__] (plotting.py:137-161): the settings of matplotlib and the formatters of the axes that are
    replaced while a figure is saved for LaTeX. *)
From Coq Require Import Ascii String List Bool Arith.
From Verif Require Import Base.
Import ListNotations.

(** [plt.rcParams]. *)
Inductive setting := SText (s : str) | SBool (b : bool) | SOther (n : nat).
Definition params := str -> option setting.
Definition set_param (rc : params) (k : str) (v : setting) : params := fun x => if str_eq_dec x k then Some v else rc x.

(** Formatters: those of the user, and instances of [SVGLogFormatter] by number. Axes that share a direction ([sharex],
    [sharey]) have one ticker for it, which holds the formatter; an axes object is its two tickers. *)
Inductive formatter := FUser (n : nat) | FSvg (k : nat).
Definition axes := (nat * nat)%type.
Definition tickers := nat -> formatter.
Definition set_formatter (fm : tickers) (t : nat) (f : formatter) : tickers := fun x => if x =? t then f else fm x.

Record state := mkState { s_rc : params; s_fm : tickers; s_next : nat }.

Section Svg.
(** [isinstance(fmt, LogFormatter)] for formatters of the user; the class of plotting.py:40 is derived from it. [savefig]
    and [_generate_tex] (92-135) with the settings and formatters they see. Simplification: neither changes them. *)
Variable user_log : nat -> bool.
Variable savefig : params -> tickers -> res unit.
Variable gen_tex : res unit.
Definition is_log (f : formatter) : bool := match f with FUser n => user_log n | FSvg _ => true end.

(** 139-143. *)
Definition keys : list str := [$"svg.fonttype"; $"mathtext.default"; $"text.usetex"].
Fixpoint old_params (rc : params) (ks : list str) : res (list (str * setting)) :=
  match ks with
  | [] => Ok []
  | k :: r => match rc k with Some v => do o <- old_params rc r; Ok ((k, v) :: o) | None => Exn KeyError end
  end.
Definition tex_params (rc : params) : params :=
  set_param (set_param (set_param rc ($"svg.fonttype") (SText ($"none"))) ($"mathtext.default") (SText ($"regular")))
            ($"text.usetex") (SBool false).

(** 145-151, over the tickers in the order they are visited. *)
Definition visited (fig : list axes) : list nat := flat_map (fun a => [fst a; snd a]) fig.
Fixpoint replace (l : list nat) (next : nat) (fm : tickers) : list (nat * formatter) * nat * tickers :=
  match l with
  | [] => ([], next, fm)
  | t :: r =>
      if is_log (fm t) then
        let '(ch, n, fm2) := replace r (S next) (set_formatter fm t (FSvg next)) in ((t, fm t) :: ch, n, fm2)
      else replace r next fm
  end.
(** 157-159. *)
Definition update_params (rc : params) (old : list (str * setting)) : params :=
  fold_left (fun rc e => set_param rc (fst e) (snd e)) old rc.
Definition restore (fm : tickers) (ch : list (nat * formatter)) : tickers :=
  fold_left (fun fm e => set_formatter fm (fst e) (snd e)) ch fm.

(** 137-161. *)
Definition write (generate_tex : bool) (fig : list axes) (st : state) : res unit * state :=
  if generate_tex then
    match old_params (s_rc st) keys with
    | Exn e => (Exn e, st)
    | Ok old =>
        let rc := tex_params (s_rc st) in
        let '(ch, n, fm) := replace (visited fig) (s_next st) (s_fm st) in
        match savefig rc fm with
        | Exn e => (Exn e, mkState rc fm n)
        | Ok _ => (gen_tex, mkState (update_params rc old) (restore fm ch) n)
        end
    end
  else (savefig (s_rc st) (s_fm st), st).
End Svg.
