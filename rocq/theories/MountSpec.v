(** Histories of calls on one mount, and where targets lie. *)
From Coq Require Import List Ascii String Bool.
From Verif Require Import Base PosixModel FsModel PathModel PathSpec.
Import ListNotations.

(** The place a requested path denotes: absolute paths are taken as they are. *)
Definition requested (cwd dir p : str) : loc :=
  match p with
  | c :: _ => if ascii_dec c "/" then walk [] (components p)
              else walk (location cwd dir) (components p)
  | [] => location cwd dir
  end.

(** The place a target denotes, seen from the mount directory [dir]: what
    [os.path.join(mnt, target)] resolves to. *)
Definition place (cwd dir : str) (t : target) : option loc :=
  match fspath t with
  | Ok p => Some (requested cwd dir p)
  | Exn _ => None
  end.

(** Calls a user (or dman) can make on a mount. *)
Inductive mount_op :=
| OpPrepare (path : str) (choice : option str)
| OpRemove (path : str)
| OpUntrack (path : str).

(** The effect of one call on file system and mount, and the target it returned, if any. *)
Definition mount_step (cwd conf : str) (s : node * mount) (o : mount_op)
  : (node * mount) * option target :=
  let (fs, m) := s in
  match o with
  | OpPrepare p c =>
      match prepare cwd conf fs m p true c [] with
      | (Ok t, (fs', m', _)) => ((fs', m'), Some t)
      | (Exn _, (fs', m', _)) => ((fs', m'), None)
      end
  | OpRemove p => let '(_, (fs', m')) := mount_remove cwd fs m p true in ((fs', m'), None)
  | OpUntrack p => match untrack cwd m p true with
                   | Ok m' => ((fs, m'), None)
                   | Exn _ => ((fs, m), None)
                   end
  end.

Fixpoint mount_run (cwd conf : str) (s : node * mount) (ops : list mount_op)
  : (node * mount) * list target :=
  match ops with
  | [] => (s, [])
  | o :: r =>
      let (s1, t) := mount_step cwd conf s o in
      let (s2, ts) := mount_run cwd conf s1 r in
      (s2, match t with Some t => t :: ts | None => ts end)
  end.

(** The collision policies that need no user. *)
Definition unattended : list str := [$"auto"; $"quit"; $"ignore"; $"_ignore"].
Definition strict : list str := [$"auto"; $"quit"].
Definition policy (conf : str) (choice : option str) : str :=
  match choice with Some c => c | None => conf end.
Definition op_policy (allowed : list str) (conf : str) (o : mount_op) : Prop :=
  match o with OpPrepare _ c => In (policy conf c) allowed | _ => True end.
Definition is_prepare (o : mount_op) : Prop := match o with OpPrepare _ _ => True | _ => False end.

(** States of a mount after any history of unattended calls. *)
Definition reachable (cwd conf : str) (dir : str) (m : mount) : Prop :=
  exists fs0 cluster gi ops fs,
    Forall (op_policy unattended conf) ops /\
    fst (mount_run cwd conf (fs0, new_mount dir cluster gi) ops) = (fs, m).
