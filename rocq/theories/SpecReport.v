(** Vocabulary of the properties of reports. *)
From Coq Require Import String ZArith List Arith Bool.
From Verif Require Import Prelude F64 Num Handlers Swarms Operators Generators Topology Optimizers Report.
Import ListNotations.
Local Open Scope list_scope.
Local Open Scope nat_scope.

(** What a user sees whose logger shows records from level [level] on: records of level 0 are never shown
    ([Logger.isEnabledFor] with [manager.disable = 0]). *)
Definition visible (level : nat) (ev : event) : bool :=
  match ev with
  | Log l _ => (0 <? l) && (level <=? l)
  | Bar _ | Postfix _ => true
  | PoolOpen _ | PoolClose => false
  end.
(** The costs shown next to the progress bar, in order. *)
Definition postfixes (evs : list event) : list f64 :=
  concat (map (fun ev => match ev with Postfix b => [b] | _ => [] end) evs).
(** The processes of a pool are still running: it was opened and not closed. *)
Definition pool_left_open (evs : list event) : Prop := (exists n, In (PoolOpen n) evs) /\ ~ In PoolClose evs.
(** The chosen document: the path if it is given and not empty, else the environment variable. *)
Definition chosen (path env : option string) (v : string) : Prop :=
  path = Some v /\ v <> ""%string \/ (path = None \/ path = Some ""%string) /\ env = Some v.
