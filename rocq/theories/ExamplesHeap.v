(** Concrete heaps for C50. *)
From Coq Require Import String ZArith List Arith Bool.
From Verif Require Import Prelude F64 Num Np Handlers Swarms Operators Generators Topology Optimizers Spec Heap SpecHeap HeapRun Demo.
Import ListNotations.
Local Open Scope string_scope.
Local Open Scope list_scope.
Local Open Scope nat_scope.

(** Two bystander arrays and the user's [init_pos] at address 1. *)
Definition hx_init : fmatrix := [[F 4; F (-4)]; [F 1; F 2]; [F (-3); F 5]].
Definition hx_heap : heap := [[[F 7]]; hx_init; [[F 8]]].
Definition hx_c (bh : string) : config := with_init (d_config GlobalBest 3 2 (Some d_bounds) None bh "invert") (Some hx_init).
Definition hx_e : env := d_env 3 2 d_obj.
Definition fmat_eqb (a b : fmatrix) : bool := Nat.eqb (length a) (length b) && forallb (fun x => x) (map2 (fun r s => Nat.eqb (length r) (length s) && forallb (fun x => x) (map2 feq r s)) a b).
(** Construct, run twice, and test what is in the heap at the end. *)
Definition h_run2 {A} (c : config) (e : env) (dr : create_draws) (init : option addr) (h0 : heap) (dflt : A) (P : heap -> hstate -> f64 -> A) : A :=
  match h_construct c star dr init h0 with
  | (h1, Ok x1) =>
      match h_optimize c e None 3 h1 x1 with
      | (h2, (x2, Ok (_, _))) => match h_optimize c e None 2 h2 x2 with (h3, (x3, Ok (c3, _))) => P h3 x3 c3 | _ => dflt end
      | _ => dflt
      end
  | _ => dflt
  end.
Lemma h_run2_session : forall c e dr init h0 P, h_run2 c e dr init h0 false P = true ->
  exists h1 x1 h3 x3 c3, h_construct c star dr init h0 = (h1, Ok x1) /\ HSession c init h1 x1 h3 x3 /\ P h3 x3 c3 = true.
Proof.
  intros c e dr init h0 P E. unfold h_run2 in E. destruct (h_construct c star dr init h0) as [h1 [x1|]]; [|discriminate].
  destruct (h_optimize c e None 3 h1 x1) as [h2 [x2 [[c2 p2]|]]] eqn:O1; [|discriminate].
  destruct (h_optimize c e None 2 h2 x2) as [h3 [x3 [[c3 p3]|]]] eqn:O2; [|discriminate].
  exists h1, x1, h3, x3, c3. split; [reflexivity|]. split; [|exact E].
  eapply HSession_optimize; [eapply HSession_optimize; [apply HSession_nil|exact O1]|exact O2].
Qed.
Definition hx_run (bh : string) : (heap -> hstate -> f64 -> bool) -> bool := h_run2 (hx_c bh) hx_e (d_cd 0 3 2) (Some 1) hx_heap false.
Definition hx_test (h : heap) (x : hstate) (_ : f64) : bool :=
  match nth_error h 1, nth_error h (hs_position (hs x)) with
  | Some m, Some p => fmat_eqb m hx_init && negb (fmat_eqb m p) && Nat.ltb 3 (length h) && Nat.eqb (length (h_pos_history x)) 5 &&
      match h_pos_history x with 1 :: _ => true | _ => false end
  | _, _ => false
  end.
Lemma hx_runs : map (fun bh => hx_run bh hx_test) ["nearest"; "reflective"; "shrink"; "random"; "intermediate"; "periodic"] = [true; true; true; true; true; true].
Proof. vm_compute. reflexivity. Qed.
Lemma hx_reflective : hx_run "reflective" hx_test = true.
Proof. vm_compute. reflexivity. Qed.
Lemma hx_session : exists (c : config) (init : option addr) (h0 h1 : heap) (x1 : hstate) (h3 : heap) (x3 : hstate) (c3 : f64), init_at h0 init (c_init c) /\ h_construct c star (d_cd 0 3 2) init h0 = (h1, Ok x1) /\ HSession c init h1 x1 h3 x3 /\ hx_test h3 x3 c3 = true.
Proof.
  destruct (h_run2_session _ _ _ _ _ _ hx_reflective) as (h1 & x1 & h3 & x3 & c3 & C & S & T).
  exists (hx_c "reflective"), (Some 1), hx_heap, h1, x1, h3, x3, c3. split; [reflexivity|]. auto.
Qed.

(** A direct call of each strategy on an array with out-of-box entries. *)
Definition hx_out : fmatrix := [[F 6; F 0]; [F 1; F (-7)]].
Definition hx_mem : fmatrix := [[F 4; F 1]; [F 2; F (-3)]].
Definition hx_h2 : heap := [hx_out; hx_mem].
Definition hx_dr : bh_draws F64num := mkBhDraws (N := F64num) [fdec 5 10; fdec 5 10] [fdec 25 100; fdec 25 100] 8.
(** Whether the call succeeds, whether it returns the caller's array, and whether that array changed. *)
Definition hx_direct (s : string) : bool * bool * bool :=
  match h_bh s hx_dr (Some 1) d_bounds 0 hx_h2 with
  | (h, Ok (a, _)) => (true, Nat.eqb a 0, match nth_error h 0 with Some m => negb (fmat_eqb m hx_out) | None => true end)
  | _ => (false, false, false)
  end.
Lemma hx_direct_runs : map hx_direct ["nearest"; "reflective"; "shrink"; "random"; "intermediate"; "periodic"] =
  [(true, false, false); (true, true, true); (true, true, true); (true, true, true); (true, true, true); (true, true, true)].
Proof. vm_compute. reflexivity. Qed.
Definition hx_cl : clamp_t F64num := ([F (-2); F (-2)], [F 2; F 2]).
Definition hx_vdirect (s : string) : bool * bool * bool :=
  match h_vh s (Some hx_cl) (Some 2) (Some d_bounds) 0 1 [hx_out; hx_mem; hx_mem] with
  | (h, Ok (a, _)) => (true, Nat.eqb a 1, match nth_error h 1 with Some m => negb (fmat_eqb m hx_mem) | None => true end)
  | _ => (false, false, false)
  end.
Lemma hx_vdirect_runs : map hx_vdirect ["unmodified"; "adjust"; "invert"; "zero"] =
  [(true, false, false); (true, false, false); (true, false, true); (true, true, true)].
Proof. vm_compute. reflexivity. Qed.
