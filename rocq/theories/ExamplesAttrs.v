(** Concrete calls of the constructors of the attrs classes (C82). *)
From Coq Require Import String ZArith List Arith Bool.
From Verif Require Import Prelude F64 Attrs SpecAttrs.
Import ListNotations.
Local Open Scope string_scope.
Local Open Scope list_scope.

(** Four particles in three dimensions, and the ways to get the call wrong. *)
Lemma swarm_calls :
  (exists s, attrs_init swarm_fields [OArray [4; 3]; OArray [4; 3]] [("best_cost", OInt 7)] = Ok s /\ dget s "n_particles" = Some (OInt 4) /\ dget s "dimensions" = Some (OInt 3) /\ dget s "best_cost" = Some (OInt 7)) /\
  attrs_init swarm_fields [OList [OInt 1; OInt 2]; OArray [2; 1]] [] = Err AttributeError /\
  attrs_init swarm_fields [OArray [4]; OArray [4]] [] = Err IndexError /\
  attrs_init swarm_fields [OArray [4; 3]; OList []] [] = Err TypeError /\
  attrs_init swarm_fields [OArray [4; 3]] [] = Err TypeError /\
  attrs_init swarm_fields [OArray [4; 3]; OArray [4; 3]] [("position", OArray [4; 3])] = Err TypeError /\
  (exists s, attrs_init swarm_fields [OArray [4]; OArray [4]; OInt 9; OBool true] [] = Ok s).
Proof. split; [eexists; repeat split|]. repeat split. eexists. reflexivity. Qed.
(** [Mesher(func, alpha=1)] fails: an int is not a float. [Designer(label="x")] and [Animator(interval=True)] do not. *)
Lemma formatter_calls :
  attrs_init mesher_fields [OOther] [("alpha", OInt 1)] = Err TypeError /\
  attrs_init mesher_fields [] [] = Err TypeError /\
  (exists s, attrs_init mesher_fields [OOther] [("delta", OStr "fine")] = Ok s /\ dget s "delta" = Some (OStr "fine") /\ dget s "alpha" = Some (OFloat (fdec 3 10))) /\
  (exists s, attrs_init designer_fields [] [("label", OStr "x"); ("text_fontsize", OInt 12)] = Ok s /\ dget s "label" = Some (OStr "x")) /\
  attrs_init designer_fields [] [("figsize", OList [OInt 10; OInt 8])] = Err TypeError /\
  (exists s, attrs_init animator_fields [OBool true] [] = Ok s) /\
  attrs_init animator_fields [] [("repeat", OInt 1)] = Err TypeError.
Proof.
  split; [reflexivity|]. split; [reflexivity|]. split; [eexists; repeat split|]. split; [eexists; repeat split|]. split; [reflexivity|]. split; [eexists; reflexivity|reflexivity].
Qed.
