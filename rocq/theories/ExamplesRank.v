(** A case that meets the hypotheses of C56 over several calls. *)
From Coq Require Import String ZArith List Arith Bool Lia.
From Verif Require Import Prelude F64 Num Np ListFacts Handlers Swarms Operators Generators Topology Optimizers Spec SpecDyn SpecRank Rank Demo ExamplesDyn.
Import ListNotations.
Local Open Scope string_scope.
Local Open Scope list_scope.
Local Open Scope nat_scope.

Definition rank_pairs (x x' : f64) : Prop := In (x, x') [(F 1, F (-7)); (F 2, F 4); (F 3, F 1000); (finf, finf)].
Lemma rank_pairs_ok : order_alike rank_pairs.
Proof.
  split; [unfold rank_pairs; do 3 right; left; reflexivity|]. intros x x' y y' A B. unfold rank_pairs in A, B.
  repeat (destruct A as [A|A]; [apply pair_equal_spec in A; destruct A as [<- <-]; repeat (destruct B as [B|B]; [apply pair_equal_spec in B; destruct B as [<- <-]; vm_compute; reflexivity|]); destruct B|]). destruct A.
Qed.
Definition step_obj' (_ : nat) (X : fmatrix) : res (list f64) :=
  Ok (map (fun r => if flt (sq r) (F 2) then F (-7) else if flt (sq r) (F 3) then F 4 else F 1000) X).
Definition step_e' : env := d_env 3 2 step_obj'.
Lemma step_pair : ranked_env rank_pairs step_e step_e'.
Proof.
  unfold ranked_env. split; [|repeat split]. intros i X. unfold step_e, step_e', d_env. cbn [e_obj]. unfold step_obj, step_obj'.
  induction X as [|r X IH]; cbn [map]; constructor; [|exact IH]. destruct (flt (sq r) (F 2)); [left; reflexivity|]. destruct (flt (sq r) (F 3)); [right; left; reflexivity|do 2 right; left; reflexivity].
Qed.
Lemma rank_test : d_test false (d_run2 (run_c GlobalBest) star (d_cd 5 3 2) step_e step_e None 2 3) (fun o' _ _ => match o_cost_history o' with [a; b; _; _; d] => feq a (F 3) && feq b (F 2) && flt d (F 2) | _ => false end) = true.
Proof. vm_compute. reflexivity. Qed.
Lemma rank_demo : exists C c calls calls' o o' o1, order_alike C /\ c_ftol c = fninf /\ Forall2 (ranked_call C) calls calls' /\ state_ranked C o o' /\ Session c o calls o1 /\
  length calls = 2 /\ (match o_cost_history o1 with [a; b; _; _; d] => feq a (F 3) && feq b (F 2) && flt d (F 2) | _ => false end) = true /\ C (F 3) (F 1000).
Proof.
  destruct (d_run2_test (run_c GlobalBest) star (d_cd 5 3 2) step_e step_e None 2 3 _ rank_test) as (o & o1 & v1 & o2 & cost & pos & K & FR & _ & E1 & E2 & H).
  exists rank_pairs, (run_c GlobalBest), [mkCall step_e None 2; mkCall step_e None 3], [mkCall step_e' None 2; mkCall step_e' None 3], o, o, o2.
  split; [exact rank_pairs_ok|]. split; [reflexivity|]. split; [repeat constructor; apply step_pair|]. split; [apply (rank_start _ _ _ rank_pairs_ok FR)|].
  split; [|split; [reflexivity|split; [exact H|do 2 right; left; reflexivity]]].
  change [mkCall step_e None 2; mkCall step_e None 3] with ([mkCall step_e None 2] ++ [mkCall step_e None 3]). eapply Session_snoc; [|exact E2]. change [mkCall step_e None 2] with ([] ++ [mkCall step_e None 2]). eapply Session_snoc; [constructor|exact E1].
Qed.
