(** Concrete runs with objectives that write into their argument (C81). *)
From Coq Require Import String ZArith List Arith Bool.
From Verif Require Import Prelude F64 Num Np Handlers Swarms Operators Generators Topology Optimizers Spec SpecHandlers Heap SpecHeap HeapWrite SpecWrite HeapRun Demo ExamplesHeap.
Import ListNotations.
Local Open Scope string_scope.
Local Open Scope list_scope.
Local Open Scope nat_scope.

(** An objective that first moves its argument into the square from -1 to 1. *)
Definition wx_cut (x : f64) : f64 := if flt x (F (-1)) then F (-1) else if flt (F 1) x then F 1 else x.
Definition wx_repair : writer := fun _ X => map (map wx_cut) X.
Definition wx_c : config := with_init (d_config GlobalBest 3 2 None None "periodic" "unmodified") (Some hx_init).
Definition wx_e : env := mkEnv (fun i X => d_obj i (wx_repair i X)) (e_vel hx_e) (e_bh hx_e) (e_oh hx_e) (e_top hx_e) (e_bits hx_e) (e_exp hx_e) (e_tree hx_e).
Definition wx_in (r : frow) : bool := forallb (fun x => fle (F (-1)) x && fle x (F 1)) r.
Definition w_run {A} (c : config) (e : env) (wr : writer) (dr : create_draws) (init : option addr) (h0 : heap) (iters : nat) (dflt : A) (P : heap -> hstate -> frow -> A) : A :=
  match h_construct c star dr init h0 with
  | (h1, Ok x1) => match w_optimize c e wr None iters h1 x1 with (h2, (x2, Ok (_, y))) => P h2 x2 y | _ => dflt end
  | _ => dflt
  end.
Lemma w_run_inv : forall c e wr dr init h0 iters P, w_run c e wr dr init h0 iters false P = true ->
  exists h1 x1 h2 x2 v y, h_construct c star dr init h0 = (h1, Ok x1) /\ w_optimize c e wr None iters h1 x1 = (h2, (x2, Ok (v, y))) /\ P h2 x2 y = true.
Proof.
  intros c e wr dr init h0 iters P E. unfold w_run in E. destruct (h_construct c star dr init h0) as [h1 [x1|]]; [|discriminate].
  destruct (w_optimize c e wr None iters h1 x1) as [h2 [x2 [[v y]|]]] eqn:O; [|discriminate]. exists h1, x1, h2, x2, v, y. auto.
Qed.
(** The caller's array has changed, the returned position is in the square, and the third array of positions, before the call, was not. *)
Definition wx_test (h : heap) (x : hstate) (y : frow) : bool :=
  match nth_error h 1 with
  | Some m => fmat_eqb m (map (map wx_cut) hx_init) && negb (fmat_eqb m hx_init) && wx_in y && Nat.eqb (length (h_pos_history x)) 3 &&
      match nth_error h (hs_position (hs x)) with Some p => negb (forallb wx_in p) | None => false end
  | None => false
  end.
Lemma wx_run : w_run wx_c wx_e wx_repair (d_cd 0 3 2) (Some 1) hx_heap 3 false wx_test = true.
Proof. vm_compute. reflexivity. Qed.
Lemma wx_demo : exists c e wr a m h0 h x h' x' v y, nth_error h0 a = Some m /\ c_init c = Some m /\ unhandled c /\ h_construct c star (d_cd 0 3 2) (Some a) h0 = (h, Ok x) /\
  w_optimize c e wr None 3 h x = (h', (x', Ok (v, y))) /\ (exists m', nth_error h' a = Some m' /\ fmat_eqb m' m = false) /\ wx_in y = true /\ length (h_pos_history x') = 3.
Proof.
  destruct (w_run_inv _ _ _ _ _ _ _ _ wx_run) as (h & x & h' & x' & v & y & HC & HO & T).
  exists wx_c, wx_e, wx_repair, 1, hx_init, hx_heap, h, x, h', x', v, y. split; [reflexivity|]. split; [reflexivity|]. split; [split; [reflexivity|discriminate]|]. split; [exact HC|]. split; [exact HO|].
  unfold wx_test in T. destruct (nth_error h' 1) as [m'|]; [|discriminate]. apply andb_true_iff in T. destruct T as [T _]. apply andb_true_iff in T. destruct T as [T T4]. apply andb_true_iff in T. destruct T as [T T3].
  apply andb_true_iff in T. destruct T as [_ T2]. apply Nat.eqb_eq in T4. split; [exists m'; split; [reflexivity|]|auto]. apply negb_true_iff in T2. exact T2.
Qed.

(** A run that stops early, because all costs are equal, and a second call whose objective writes. *)
Definition wx_stop : config := mkConfig GlobalBest 3 2 d_options None None [fone; fone] (fdec 1 10) 1 None "periodic" "unmodified" [].
Definition wx_flat : env := mkEnv (fun _ X => Ok (repeat fzero (length X))) (e_vel hx_e) (e_bh hx_e) (e_oh hx_e) (e_top hx_e) (e_bits hx_e) (e_exp hx_e) (e_tree hx_e).
Definition wx_nine : writer := fun _ X => map (map (fun _ => F 9)) X.
Definition w_run2 (c : config) (e : env) (dr : create_draws) (h0 : heap) (wr1 wr2 : writer) (n1 n2 : nat) (P : heap -> hstate -> heap -> bool) : bool :=
  match h_construct c star dr None h0 with
  | (h, Ok x) =>
      match w_optimize c e wr1 None n1 h x with
      | (h1, (x1, Ok _)) => match w_optimize c e wr2 None n2 h1 x1 with (h2, (_, Ok _)) => P h1 x1 h2 | _ => false end
      | _ => false
      end
  | _ => false
  end.
Lemma w_run2_inv : forall c e dr h0 wr1 wr2 n1 n2 P, w_run2 c e dr h0 wr1 wr2 n1 n2 P = true -> exists h x h1 x1 r1 h2 x2 r2,
  h_construct c star dr None h0 = (h, Ok x) /\ w_optimize c e wr1 None n1 h x = (h1, (x1, Ok r1)) /\ w_optimize c e wr2 None n2 h1 x1 = (h2, (x2, Ok r2)) /\ P h1 x1 h2 = true.
Proof.
  intros c e dr h0 wr1 wr2 n1 n2 P E. unfold w_run2 in E. destruct (h_construct c star dr None h0) as [h [x|]]; [|discriminate].
  destruct (w_optimize c e wr1 None n1 h x) as [h1 [x1 [r1|]]] eqn:O1; [|discriminate]. destruct (w_optimize c e wr2 None n2 h1 x1) as [h2 [x2 [r2|]]] eqn:O2; [|discriminate].
  exists h, x, h1, x1, r1, h2, x2, r2. auto.
Qed.
(** The second entry of the history after the first call has other entries after the second. *)
Definition wx_changed (h1 : heap) (x1 : hstate) (h2 : heap) : bool :=
  match nth_error (h_pos_history x1) 1 with
  | Some a => match nth_error h1 a, nth_error h2 a with Some m, Some m' => fmat_eqb m m && negb (fmat_eqb m' m) | _, _ => false end
  | None => false
  end.
Lemma wx_run2 : w_run2 wx_stop wx_flat (d_cd 0 3 2) [] (fun _ X => X) wx_nine 5 1 wx_changed = true.
Proof. vm_compute. reflexivity. Qed.
Lemma history_rewritten : ~ (forall c top dr init h0 h x e wr1 wr2 n1 n2 h1 x1 r1 h2 x2 r2, init_at h0 init (c_init c) -> h_construct c top dr init h0 = (h, Ok x) ->
  w_optimize c e wr1 None n1 h x = (h1, (x1, Ok r1)) -> w_optimize c e wr2 None n2 h1 x1 = (h2, (x2, Ok r2)) ->
  forall a m, In a (h_pos_history x1) -> nth_error h1 a = Some m -> nth_error h2 a = Some m).
Proof.
  intros A. destruct (w_run2_inv _ _ _ _ _ _ _ _ _ wx_run2) as (h & x & h1 & x1 & r1 & h2 & x2 & r2 & HC & O1 & O2 & T).
  pose proof (A wx_stop star (d_cd 0 3 2) None [] h x wx_flat (fun _ X => X) wx_nine 5 1 h1 x1 r1 h2 x2 r2 Logic.I HC O1 O2) as B. clear A HC O1 O2.
  unfold wx_changed in T. destruct (nth_error (h_pos_history x1) 1) as [a|] eqn:EA; [|discriminate]. destruct (nth_error h1 a) as [m|] eqn:EM; [|discriminate].
  rewrite (B _ _ (nth_error_In _ _ EA) EM) in T. apply andb_true_iff in T. destruct T as [T1 T2]. rewrite T1 in T2. discriminate.
Qed.
