(** Cases that meet the hypotheses of C90. *)
From Coq Require Import String ZArith List Arith Bool Lia.
From Verif Require Import Prelude F64 Num Np ListFacts Handlers Swarms Operators Generators Topology Optimizers Broadcast Spec SpecHandlers SpecRun SpecBroadcast BroadcastFacts Demo ExamplesOne.
Import ListNotations.
Local Open Scope string_scope.
Local Open Scope list_scope.
Local Open Scope nat_scope.

(** The square of the first row's length, as an objective meant for a single particle would return it. *)
Definition bc_v (_ : nat) (X : fmatrix) : f64 := sq (hd [] X).
Definition bc_f (i : nat) (X : fmatrix) : res given := Ok (Single (bc_v i X)).
Definition bc_a (i : nat) (X : fmatrix) : res given := Ok (Array [bc_v i X]).
Definition bc_c : config := d_config GlobalBest 3 2 None None "periodic" "unmodified".
Definition bc_e : env := d_env 3 2 d_obj.
Definition ran (c : res ostate) (g : ostate -> ostate * res (f64 * frow)) : bool := is_ok (do o <- c; match g o with (o', Ok v) => Ok (o', v) | (_, Err x) => Err x end).
Lemma run_inv : forall (c : res ostate) (g : ostate -> ostate * res (f64 * frow)), ran c g = true -> exists o o' cost pos, c = Ok o /\ g o = (o', Ok (cost, pos)).
Proof. unfold ran. intros [o|x] g H; [|discriminate]. cbn [bind] in H. destruct (g o) as [o' [[cost pos]|x]] eqn:E; [|discriminate]. exists o, o', cost, pos. auto. Qed.
Lemma bc_once : ran (construct bc_c star (d_cd 0 3 2)) (optimize_given bc_c bc_e bc_f None 5) = true. Proof. vm_compute. reflexivity. Qed.
Lemma bc_one : ran (construct bc_c star (d_cd 0 3 2)) (optimize_given bc_c bc_e bc_a (Some 1) 5) = true. Proof. vm_compute. reflexivity. Qed.
Lemma bc_each : ran (construct bc_c star (d_cd 0 3 2)) (optimize_given bc_c bc_e bc_a (Some 3) 5) = true. Proof. vm_compute. reflexivity. Qed.
Lemma bc_built : is_ok (construct bc_c star (d_cd 0 3 2)) = true. Proof. vm_compute. reflexivity. Qed.
Lemma once_demo : exists c top dr e f g o o' cost pos, construct c top dr = Ok o /\ 2 <= c_n c /\ repeats (c_n c) f g /\ (forall i X, exists x, f i X = Ok (Single x)) /\ optimize_given c e f None 5 o = (o', Ok (cost, pos)).
Proof.
  destruct (run_inv (construct bc_c star (d_cd 0 3 2)) (optimize_given bc_c bc_e bc_f None 5) bc_once) as (o & o' & cost & pos & C & E).
  exists bc_c, star, (d_cd 0 3 2), bc_e, bc_f, (spread 3 bc_f), o, o', cost, pos. split; [exact C|]. split; [cbn; lia|]. split; [exact (spread_repeats 3 bc_f)|]. split; [intros i X; eexists; reflexivity|exact E].
Qed.
Lemma one_demo : exists c top dr e f v o o' cost pos, construct c top dr = Ok o /\ 2 <= c_n c /\ (forall i X, f i X = Ok (Array [v i X])) /\ optimize_given c e f (Some 1) 5 o = (o', Ok (cost, pos)).
Proof.
  destruct (run_inv (construct bc_c star (d_cd 0 3 2)) (optimize_given bc_c bc_e bc_a (Some 1) 5) bc_one) as (o & o' & cost & pos & C & E).
  exists bc_c, star, (d_cd 0 3 2), bc_e, bc_a, bc_v, o, o', cost, pos. split; [exact C|]. split; [cbn; lia|]. split; [reflexivity|exact E].
Qed.
Lemma each_demo : exists c top dr e f v o o' cost pos, construct c top dr = Ok o /\ 2 <= c_n c /\ (forall i X, f i X = Ok (Array [v i X])) /\ optimize_given c e f (Some (c_n c)) 5 o = (o', Ok (cost, pos)).
Proof.
  destruct (run_inv (construct bc_c star (d_cd 0 3 2)) (optimize_given bc_c bc_e bc_a (Some 3) 5) bc_each) as (o & o' & cost & pos & C & E).
  exists bc_c, star, (d_cd 0 3 2), bc_e, bc_a, bc_v, o, o', cost, pos. split; [exact C|]. split; [cbn; lia|]. split; [reflexivity|exact E].
Qed.
Lemma pool_demo : exists c top dr o (f g : nat -> fmatrix -> res given) v k, construct c top dr = Ok o /\ 2 <= c_n c /\ k <> 0 /\ k <> 1 /\ k <> c_n c /\ (forall i X, f i X = Ok (Array [v i X])) /\ (forall i X, exists x, g i X = Ok (Single x)).
Proof.
  destruct (ok_ex _ _ bc_built) as [o C]. exists bc_c, star, (d_cd 0 3 2), o, bc_a, bc_f, bc_v, 2. split; [exact C|]. split; [cbn; lia|]. split; [lia|]. split; [lia|]. split; [cbn; lia|]. split; [reflexivity|]. intros i X. eexists. reflexivity.
Qed.
