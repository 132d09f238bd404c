(** What C82 says about the constructors of the attrs classes. *)
From Coq Require Import String ZArith List Arith Bool.
From Verif Require Import Prelude F64 Attrs.
Import ListNotations.
Local Open Scope string_scope.
Local Open Scope list_scope.

(** In a call with positional arguments [args] and keywords [kw] of a function with these
    parameters, [k] is given the value [v]. *)
Definition passed (names : list string) (args : list pyobj) (kw : dict pyobj) (k : string) (v : pyobj) : Prop :=
  (exists i, nth_error names i = Some k /\ nth_error args i = Some v) \/ dget kw k = Some v.
Definition omitted (names : list string) (args : list pyobj) (kw : dict pyobj) (k : string) : Prop := forall v, ~ passed names args kw k v.
(** The call binds its arguments: not too many, and every keyword is a parameter not already given. *)
Definition callable (names : list string) (args : list pyobj) (kw : dict pyobj) : Prop :=
  length args <= length names /\ forall k, In k (dkeys kw) -> exists i, length args <= i /\ nth_error names i = Some k.
(** Kinds of values. *)
Definition is_array (v : pyobj) : Prop := exists sh, v = OArray sh.
Definition is_int (v : pyobj) : Prop := (exists z, v = OInt z) \/ exists b, v = OBool b.
Definition is_float (v : pyobj) : Prop := exists x, v = OFloat x.
Definition is_str (v : pyobj) : Prop := exists s, v = OStr s.
Definition is_list (v : pyobj) : Prop := exists l, v = OList l.
Definition is_tuple (v : pyobj) : Prop := exists l, v = OTuple l.
Definition is_dict (v : pyobj) : Prop := exists l, v = ODict l.
Definition is_bool (v : pyobj) : Prop := exists b, v = OBool b.
Definition swarm_names : list string :=
  ["position"; "velocity"; "n_particles"; "dimensions"; "options"; "pbest_pos"; "best_pos"; "pbest_cost"; "best_cost"; "current_cost"].
Definition designer_names : list string := ["figsize"; "title_fontsize"; "text_fontsize"; "legend"; "label"; "limits"; "colormap"].
Definition animator_names : list string := ["interval"; "repeat_delay"; "repeat"].
Definition mesher_names : list string := ["func"; "delta"; "limits"; "levels"; "alpha"].
