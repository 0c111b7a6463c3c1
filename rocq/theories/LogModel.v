(** log.py:506-523 [Logger.layer], 368-370 [Logger.indent], 649-665 [logger_context].

    Simplifications: of a message only its indentation (log.py:395-397: the length of the stack) is kept; owners of layers
    and levels are numbers; the message filter by level is left out; a program is a nest of layers, contexts and handlers. *)
From Coq Require Import List Bool Arith.
Import ListNotations.

(** [PCatch p]: [try: p; except Exception: ...] (as in serializables.py:551-558, record.py:234-278). *)
Inductive lprog := PSkip | PMsg | PRaise | PSeq (p q : lprog) | PCatch (p : lprog)
                 | PLayer (owner : nat) (p : lprog) | PLevel (level : option nat) (p : lprog).
(** [l_stack]: [logger.stack], first pushed first; [l_out]: indentations of the messages, latest first. *)
Record lst := mkLst { l_stack : list nat; l_level : nat; l_out : list nat }.

Definition emit (s : lst) : lst := mkLst (l_stack s) (l_level s) (List.length (l_stack s) :: l_out s).

(** The result tells whether an exception leaves the program. *)
Fixpoint lrun (p : lprog) (s : lst) : bool * lst :=
  match p with
  | PSkip => (false, s)
  | PMsg => (false, emit s)
  | PRaise => (true, s)
  | PSeq p q => match lrun p s with (true, s1) => (true, s1) | (false, s1) => lrun q s1 end
  | PCatch p => (false, snd (lrun p s))
  | PLayer o p =>                                            (* 519-523 *)
      let s1 := emit s in
      match lrun p (mkLst (l_stack s1 ++ [o]) (l_level s1) (l_out s1)) with
      | (true, s2) => (true, s2)
      | (false, s2) => (false, emit (mkLst (removelast (l_stack s2)) (l_level s2) (l_out s2)))
      end
  | PLevel None p => lrun p s                                (* 658-660 *)
  | PLevel (Some v) p =>                                     (* 662-665 *)
      match lrun p (mkLst (l_stack s) v (l_out s)) with
      | (true, s2) => (true, s2)
      | (false, s2) => (false, mkLst (l_stack s2) (l_level s) (l_out s2))
      end
  end.
