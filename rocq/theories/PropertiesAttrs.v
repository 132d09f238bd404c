(** The constructors of the attrs classes (C82). *)
From Coq Require Import String ZArith List Arith Bool.
From Verif Require Import Prelude F64 Num Np Handlers Swarms Operators Generators Attrs SpecAttrs AttrsFacts ExamplesAttrs.
Import ListNotations.
Local Open Scope string_scope.
Local Open Scope list_scope.

(** *** C82: what the constructors of Swarm, Designer, Animator and Mesher accept *)
(** The calls of [Swarm] that succeed. *)
Theorem C82_swarm : forall args kw, (exists s, attrs_init swarm_fields args kw = Ok s) <->
  callable swarm_names args kw /\
  (exists sh, passed swarm_names args kw "position" (OArray sh) /\ (omitted swarm_names args kw "n_particles" -> 1 <= length sh) /\ (omitted swarm_names args kw "dimensions" -> 2 <= length sh)) /\
  (exists v, passed swarm_names args kw "velocity" v /\ is_array v) /\
  (forall v, passed swarm_names args kw "n_particles" v \/ passed swarm_names args kw "dimensions" v -> is_int v) /\
  (forall v, passed swarm_names args kw "options" v -> is_dict v) /\
  (forall k v, In k ["pbest_pos"; "best_pos"; "pbest_cost"; "current_cost"] -> passed swarm_names args kw k v -> is_array v) /\
  (forall v, passed swarm_names args kw "best_cost" v -> is_int v \/ is_float v).
Proof. exact swarm_accepts. Qed.
Print Assumptions C82_swarm.
(** The attributes after such a call. *)
Theorem C82_attributes : forall args kw s, attrs_init swarm_fields args kw = Ok s ->
  (forall k v, passed swarm_names args kw k v -> dget s k = Some v) /\
  (forall sh, dget s "position" = Some (OArray sh) ->
     (omitted swarm_names args kw "n_particles" -> exists n, nth_error sh 0 = Some n /\ dget s "n_particles" = Some (OInt (Z.of_nat n))) /\
     (omitted swarm_names args kw "dimensions" -> exists n, nth_error sh 1 = Some n /\ dget s "dimensions" = Some (OInt (Z.of_nat n)))) /\
  (omitted swarm_names args kw "pbest_pos" -> dget s "pbest_pos" = dget s "position") /\
  (omitted swarm_names args kw "best_cost" -> dget s "best_cost" = Some (OFloat finf)) /\
  (forall k, In k ["best_pos"; "pbest_cost"; "current_cost"] -> omitted swarm_names args kw k -> dget s k = Some (OArray [0])) /\
  (omitted swarm_names args kw "options" -> dget s "options" = Some (ODict [])).
Proof. exact swarm_attributes. Qed.
Print Assumptions C82_attributes.
(** The exceptions of the other calls. *)
Theorem C82_raises : forall args kw x, attrs_init swarm_fields args kw = Err x ->
  (x = AttributeError <-> callable swarm_names args kw /\ ~ omitted swarm_names args kw "velocity" /\ (omitted swarm_names args kw "n_particles" \/ omitted swarm_names args kw "dimensions") /\
     exists v, passed swarm_names args kw "position" v /\ ~ is_array v) /\
  (x = IndexError <-> callable swarm_names args kw /\ ~ omitted swarm_names args kw "velocity" /\
     exists sh, passed swarm_names args kw "position" (OArray sh) /\ (omitted swarm_names args kw "n_particles" /\ length sh = 0 \/ omitted swarm_names args kw "dimensions" /\ length sh <= 1)) /\
  (x = AttributeError \/ x = IndexError \/ x = TypeError).
Proof. exact swarm_raises. Qed.
Print Assumptions C82_raises.
Example C82_example :
  (exists s, attrs_init swarm_fields [OArray [4; 3]; OArray [4; 3]] [("best_cost", OInt 7)] = Ok s /\ dget s "n_particles" = Some (OInt 4) /\ dget s "dimensions" = Some (OInt 3) /\ dget s "best_cost" = Some (OInt 7)) /\
  attrs_init swarm_fields [OList [OInt 1; OInt 2]; OArray [2; 1]] [] = Err AttributeError /\
  attrs_init swarm_fields [OArray [4]; OArray [4]] [] = Err IndexError /\
  attrs_init swarm_fields [OArray [4; 3]; OList []] [] = Err TypeError /\
  attrs_init swarm_fields [OArray [4; 3]] [] = Err TypeError /\
  attrs_init swarm_fields [OArray [4; 3]; OArray [4; 3]] [("position", OArray [4; 3])] = Err TypeError /\
  (exists s, attrs_init swarm_fields [OArray [4]; OArray [4]; OInt 9; OBool true] [] = Ok s).
Proof. exact swarm_calls. Qed.
(** The call in [create_swarm] never fails, and its attributes are those of the swarm of the other theorems. *)
Theorem C82_create : forall n d discrete binary o b center init clamp dr s ks, create_swarm n d discrete binary o b center init clamp dr = Ok s ->
  exists a, attrs_init swarm_fields [OArray [length (s_position s); s_d s]; OArray [length (s_velocity s); s_d s]] [("options", ODict ks)] = Ok a /\
    dget a "n_particles" = Some (OInt (Z.of_nat (s_n s))) /\ dget a "dimensions" = Some (OInt (Z.of_nat (s_d s))) /\ dget a "options" = Some (ODict ks) /\
    dget a "pbest_pos" = Some (OArray [length (s_pbest_pos s); s_d s]) /\ dget a "pbest_cost" = Some (OArray [length (s_pbest_cost s)]) /\
    dget a "best_cost" = Some (OFloat (s_best_cost s)) /\ dget a "current_cost" = Some (OArray [length (s_current_cost s)]).
Proof. exact create_attributes. Qed.
Print Assumptions C82_create.
(** The formatters of the plots. *)
Theorem C82_designer : forall args kw, (exists s, attrs_init designer_fields args kw = Ok s) <-> callable designer_names args kw /\
  (forall v, passed designer_names args kw "figsize" v -> is_tuple v) /\
  (forall v, passed designer_names args kw "title_fontsize" v -> is_str v \/ is_int v \/ is_float v) /\
  (forall v, passed designer_names args kw "text_fontsize" v -> is_str v \/ is_int v \/ is_float v) /\
  (forall v, passed designer_names args kw "legend" v -> is_str v) /\
  (forall v, passed designer_names args kw "label" v -> is_str v \/ is_list v \/ is_tuple v) /\
  (forall v, passed designer_names args kw "limits" v -> is_list v \/ is_tuple v) /\
  (forall v, passed designer_names args kw "colormap" v -> v = OColormap).
Proof. exact designer_accepts. Qed.
Print Assumptions C82_designer.
Theorem C82_animator : forall args kw, (exists s, attrs_init animator_fields args kw = Ok s) <-> callable animator_names args kw /\
  (forall v, passed animator_names args kw "interval" v -> is_int v) /\ (forall v, passed animator_names args kw "repeat" v -> is_bool v).
Proof. exact animator_accepts. Qed.
Print Assumptions C82_animator.
Theorem C82_mesher : forall args kw, (exists s, attrs_init mesher_fields args kw = Ok s) <-> callable mesher_names args kw /\ (exists v, passed mesher_names args kw "func" v) /\
  (forall v, passed mesher_names args kw "limits" v -> is_list v \/ is_tuple v) /\ (forall v, passed mesher_names args kw "alpha" v -> is_float v).
Proof. exact mesher_accepts. Qed.
Print Assumptions C82_mesher.
Theorem C82_formatter_attributes : forall args kw s k v,
  (attrs_init designer_fields args kw = Ok s -> passed designer_names args kw k v -> dget s k = Some v) /\
  (attrs_init animator_fields args kw = Ok s -> passed animator_names args kw k v -> dget s k = Some v) /\
  (attrs_init mesher_fields args kw = Ok s -> passed mesher_names args kw k v -> dget s k = Some v).
Proof. exact formatter_keeps. Qed.
Print Assumptions C82_formatter_attributes.
Theorem C82_formatter_raises : forall args kw x, attrs_init designer_fields args kw = Err x \/ attrs_init animator_fields args kw = Err x \/ attrs_init mesher_fields args kw = Err x -> x = TypeError.
Proof. exact formatter_raises. Qed.
Print Assumptions C82_formatter_raises.
Example C82_formatters :
  attrs_init mesher_fields [OOther] [("alpha", OInt 1)] = Err TypeError /\
  attrs_init mesher_fields [] [] = Err TypeError /\
  (exists s, attrs_init mesher_fields [OOther] [("delta", OStr "fine")] = Ok s /\ dget s "delta" = Some (OStr "fine") /\ dget s "alpha" = Some (OFloat (fdec 3 10))) /\
  (exists s, attrs_init designer_fields [] [("label", OStr "x"); ("text_fontsize", OInt 12)] = Ok s /\ dget s "label" = Some (OStr "x")) /\
  attrs_init designer_fields [] [("figsize", OList [OInt 10; OInt 8])] = Err TypeError /\
  (exists s, attrs_init animator_fields [OBool true] [] = Ok s) /\
  attrs_init animator_fields [] [("repeat", OInt 1)] = Err TypeError.
Proof. exact formatter_calls. Qed.
