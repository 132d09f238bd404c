(** Properties of the options handler (C38-C41) and of BinaryPSO (C42, C43). *)
From Coq Require Import String ZArith List Arith Bool Reals.
From Flocq Require Import IEEE754.BinarySingleNaN.
From Verif Require Import Prelude F64 F64Facts Num Np Handlers Swarms Operators Generators Topology Optimizers
  Spec SpecHandlers SpecOpts ListFacts OptFacts OptReal OptRun BinFacts Demo ExamplesMotion ExamplesOpts.
Import ListNotations.
Local Open Scope string_scope.
Local Open Scope list_scope.
Local Open Scope nat_scope.

(** *** C38: one call of the options handler *)
Theorem C38_varied : forall (N : Num), forall lib (st : dict string) (start opts : options N) k, NoDup (dkeys start) -> oh_call lib st start k = Ok opts ->
  dkeys opts = dkeys start /\
  (forall opt, dget st opt = None -> dget opts opt = dget start opt) /\
  (forall opt s, In opt (dkeys start) -> dget st opt = Some s ->
     exists x, dget opts opt = Some (PFloat x) /\ new_value lib start k opt s x).
Proof. exact (@options_varied). Qed.
Print Assumptions C38_varied.
Theorem C38_total : forall (N : Num), forall lib (st : dict string) (start : options N) k,
  (forall opt s, In opt (dkeys start) -> dget st opt = Some s -> exists x, new_value lib start k opt s x) ->
  exists opts, oh_call lib st start k = Ok opts.
Proof. exact (@options_total). Qed.
Print Assumptions C38_total.
Theorem C38_key_error : forall (N : Num), forall lib (st : dict string) (start : options N) k, 
  (forall opt s, In opt (dkeys start) -> dget st opt = Some s -> key_missing start k opt s \/ exists x, new_value lib start k opt s x) ->
  (exists opt s, In opt (dkeys start) /\ dget st opt = Some s /\ key_missing start k opt s) ->
  oh_call lib st start k = Err KeyError.
Proof. exact (@options_key_error). Qed.
Print Assumptions C38_key_error.
Theorem C38_errors : forall (N : Num), forall lib (st : dict string) (start : options N) k x, oh_call lib st start k = Err x ->
  exists opt s, In opt (dkeys start) /\ dget st opt = Some s /\
    ((x = KeyError /\ key_missing start k opt s) \/
     (x = ZeroDivisionError /\ divides_by_zero lib k s) \/
     (x = Unmodelled /\ s = "nonlin_mod" /\ exists i m, ok_iternow k = Some i /\ ok_itermax k = Some m /\ (m < i)%Z)).
Proof. exact (@options_error). Qed.
Print Assumptions C38_errors.
Theorem C38_missing_raises : forall (N : Num), forall lib (st : dict string) (start : options N) k opt s, In opt (dkeys start) -> dget st opt = Some s ->
  key_missing start k opt s -> exists x, oh_call lib st start k = Err x.
Proof. exact (@options_missing). Qed.
Print Assumptions C38_missing_raises.
Theorem C38_run : forall c e pool iters o o' r, c_kind c <> Binary -> NoDup (dkeys (c_options c)) ->
  optimize c e pool iters o = (o', r) ->
  s_options (o_swarm o') = s_options (o_swarm o) \/
  exists i, (i < iters)%nat /\ dkeys (s_options (o_swarm o')) = dkeys (c_options c) /\
    (forall opt, dget (c_oh c) opt = None -> dget (s_options (o_swarm o')) opt = dget (c_options c) opt) /\
    (forall opt s, In opt (dkeys (c_options c)) -> dget (c_oh c) opt = Some s ->
       exists x, dget (s_options (o_swarm o')) opt = Some (PFloat x) /\ new_value (e_oh e i) (c_options c) (iter_kw i iters) opt s x).
Proof. exact options_not_compounded. Qed.
Print Assumptions C38_run.
Example C38_example : NoDup (dkeys d_options) /\
  p_is (p_val [("w", "lin_variation")] (p_kw 1 2) "w") (fadd (fdec 4 10) (fdiv (fmul (fsub (fdec 9 10) (fdec 4 10)) (fofZ 1)) (fofZ 2))) = true /\
  p_is (p_val [("w", "lin_variation")] (p_kw 1 2) "c1") (fdec 5 10) = true /\ is_ok (oh_call p_lib [("w", "lin_variation")] d_options (p_kw 1 2)) = true.
Proof. exact (conj d_options_nodup lin_example). Qed.
Example C38_example_errors : is_err KeyError (oh_call p_lib [("w", "nope")] d_options (p_kw 1 2)) = true /\
  is_err KeyError (oh_call p_lib [("k", "lin_variation")] d_options (p_kw 1 2)) = true /\
  is_err KeyError (oh_call p_lib [("w", "random")] d_options (p_kw 1 2)) = true.
Proof. exact errors_example. Qed.
(** After four iterations w is the value of iteration 3, computed from the start value. *)
Example C38_example_run : d_test false (d_run (p_config [("w", "lin_variation")]) star (d_cd 0 3 2) run_e None 4)
  (fun o' _ _ => opt_is "w" (fadd (fdec 4 10) (fdiv (fmul (fsub (fdec 9 10) (fdec 4 10)) (fofZ 1)) (fofZ 4))) o') = true.
Proof. exact p_run_lin. Qed.

Local Open Scope R_scope.
(** *** C39: interpolation, over the reals *)
Theorem C39_lin : forall (start : options Rnum) opt k (s e : R) i m, holds start opt s -> has_defaults start -> ends_at start k opt e ->
  ok_iternow k = Some i -> ok_itermax k = Some m -> (0 < m)%Z ->
  exists x : R, oh_lin_variation start opt k = Ok x /\ (i = 0%Z -> x = s) /\ (i = m -> x = e) /\ ((0 <= i <= m)%Z -> between s e x).
Proof. exact lin_interpolates. Qed.
Print Assumptions C39_lin.
Theorem C39_lin_monotone : forall (start : options Rnum) opt k1 k2 (s e x1 x2 : R) i1 i2 m, holds start opt s -> has_defaults start ->
  ends_at start k1 opt e -> ends_at start k2 opt e ->
  ok_iternow k1 = Some i1 -> ok_iternow k2 = Some i2 -> ok_itermax k1 = Some m -> ok_itermax k2 = Some m -> (0 <= i1 <= i2)%Z -> (i2 <= m)%Z -> (0 < m)%Z ->
  oh_lin_variation start opt k1 = Ok x1 -> oh_lin_variation start opt k2 = Ok x2 -> between x1 e x2.
Proof. exact lin_monotone. Qed.
Print Assumptions C39_lin_monotone.
Theorem C39_nonlin : forall lib (start : options Rnum) opt k (s e n : R) i m, real_lib lib -> holds start opt s -> has_defaults start -> ends_at start k opt e ->
  ok_iternow k = Some i -> ok_itermax k = Some m -> (0 < m)%Z -> (0 <= i <= m)%Z -> index_n k n -> 0 < n ->
  exists x : R, oh_nonlin_mod lib start opt k = Ok x /\ (i = 0%Z -> x = s) /\ (i = m -> x = e) /\ between s e x.
Proof. exact nonlin_interpolates. Qed.
Print Assumptions C39_nonlin.
Theorem C39_nonlin_monotone : forall lib (start : options Rnum) opt k1 k2 (s e n x1 x2 : R) i1 i2 m, real_lib lib -> holds start opt s -> has_defaults start ->
  ends_at start k1 opt e -> ends_at start k2 opt e -> index_n k1 n -> index_n k2 n -> 0 < n ->
  ok_iternow k1 = Some i1 -> ok_iternow k2 = Some i2 -> ok_itermax k1 = Some m -> ok_itermax k2 = Some m -> (0 <= i1 <= i2)%Z -> (i2 <= m)%Z -> (0 < m)%Z ->
  oh_nonlin_mod lib start opt k1 = Ok x1 -> oh_nonlin_mod lib start opt k2 = Ok x2 -> between x1 e x2.
Proof. exact nonlin_monotone. Qed.
Print Assumptions C39_nonlin_monotone.
Example C39_example : exists lib, real_lib lib /\ holds w_start "w" (9 / 10 : Rnum) /\ has_defaults w_start /\
  forall i m, ends_at w_start (w_kw i m) "w" (4 / 10 : Rnum).
Proof. destruct real_lib_ex as (lib & L). exists lib. destruct w_start_facts as (A & B & _ & D). auto. Qed.

(** *** C40: exp_decay, over the reals *)
Theorem C40_value : forall lib (start : options Rnum) opt k (s e d1 d2 : R) i m, real_lib lib -> holds start opt s -> has_defaults start -> ends_at start k opt e ->
  ok_iternow k = Some i -> ok_itermax k = Some m -> d1_is k d1 -> d2_is k d2 -> 0 <= d2 -> (0 <= i)%Z -> (0 < m)%Z ->
  oh_exp_decay lib start opt k = Ok ((s - e - d1) * exp (1 / (1 + d2 * IZR i / IZR m))).
Proof. exact exp_value. Qed.
Print Assumptions C40_value.
Theorem C40_strict : forall lib (start : options Rnum) opt k1 k2 (s e d1 d2 x1 x2 : R) i1 i2 m, real_lib lib -> holds start opt s -> has_defaults start ->
  ends_at start k1 opt e -> ends_at start k2 opt e -> d1_is k1 d1 -> d1_is k2 d1 -> d2_is k1 d2 -> d2_is k2 d2 -> 0 < d2 ->
  ok_iternow k1 = Some i1 -> ok_iternow k2 = Some i2 -> ok_itermax k1 = Some m -> ok_itermax k2 = Some m -> (0 <= i1 < i2)%Z -> (0 < m)%Z ->
  oh_exp_decay lib start opt k1 = Ok x1 -> oh_exp_decay lib start opt k2 = Ok x2 -> (x2 < x1 <-> 0 < s - e - d1).
Proof. exact exp_strict. Qed.
Print Assumptions C40_strict.
Theorem C40_default_c2_negative : forall lib (start : options Rnum) k (s d1 d2 : R) i m, real_lib lib -> holds start "c2" s -> has_defaults start ->
  (forall e, ok_end k = Some e -> dget e "c2" = None) ->
  ok_iternow k = Some i -> ok_itermax k = Some m -> d1_is k d1 -> d2_is k d2 -> 0 < d1 -> 0 <= d2 -> (0 <= i)%Z -> (0 < m)%Z ->
  exists x : R, oh_exp_decay lib start "c2" k = Ok x /\ x < 0.
Proof. exact exp_c2_negative. Qed.
Print Assumptions C40_default_c2_negative.
Theorem C40_interpolates_refuted : exists lib (start : options Rnum) opt k (s e x : R), real_lib lib /\ holds start opt s /\ has_defaults start /\ ends_at start k opt e /\
  ok_iternow k = Some 7%Z /\ ok_itermax k = Some 8%Z /\ e < s /\ oh_exp_decay lib start opt k = Ok x /\ x < e /\ ~ between s e x.
Proof. exact exp_leaves_interval. Qed.
Print Assumptions C40_interpolates_refuted.
Example C40_example : exists lib, real_lib lib /\ holds w_start "w" (9 / 10 : Rnum) /\ has_defaults w_start /\
  forall i m, ends_at w_start (w_kw i m) "w" (4 / 10 : Rnum).
Proof. exact C39_example. Qed.

(** *** C41: 'random' *)
Theorem C41_real_range : forall (lib : oh_lib Rnum) (start : options Rnum) opt k (s e : R) eo, holds start opt s -> ok_end k = Some eo -> dget eo opt = Some (e : Rnum) ->
  0 <= l_rand lib opt < 1 -> exists x : R, oh_random lib start opt k = Ok x /\ between s e x.
Proof. exact random_real. Qed.
Print Assumptions C41_real_range.
Close Scope R_scope.
Theorem C41_float_range : forall (lib : oh_lib F64num) (start : options F64num) opt k (s e : f64) eo,
  holds start opt s -> ok_end k = Some eo -> dget eo opt = Some (e : F64num) ->
  fle fzero (l_rand lib opt) = true -> flt (l_rand lib opt) fone = true ->
  ffinite s = true -> ffinite e = true -> ffinite (fsub e s) = true ->
  exists x : f64, oh_random lib start opt k = Ok x /\ ((fle s x = true /\ fle x e = true) \/ (fle e x = true /\ fle x s = true)).
Proof. exact random_float. Qed.
Print Assumptions C41_float_range.
Theorem C41_never_runs : forall c e pool iters o o' r opt,
  c_kind c <> Binary -> c_ftol_iter c <> 0%nat -> (0 < iters)%nat ->
  In opt (dkeys (c_options c)) -> dget (c_oh c) opt = Some "random"%string ->
  feq (l_pow (e_oh e 0%nat) (fofZ (Z.of_nat iters)) (fdec 12 10)) fzero = false ->
  optimize c e pool iters o = (o', r) ->
  exists x, r = Err x /\
    ((o_pos_history o' = o_pos_history o) \/
     (x = KeyError /\ o_pos_history o' = o_pos_history o ++ [s_position (o_swarm o)])).
Proof. exact random_never_runs. Qed.
Print Assumptions C41_never_runs.
Example C41_example : feq (l_pow (e_oh run_e 0) (fofZ (Z.of_nat 4)) (fdec 12 10)) fzero = false /\
  match construct (p_config [("w", "random")]) star (d_cd 0 3 2) with
  | Ok o => let (o', r) := optimize (p_config [("w", "random")]) run_e None 4 o in is_err KeyError r && Nat.eqb (length (o_pos_history o')) 1
  | Err _ => false end = true.
Proof. exact (conj p_pow p_run_random). Qed.

(** *** C42: BinaryPSO positions *)
Theorem C42_run : forall c e pool iters o o' r, c_kind c = Binary -> optimize c e pool iters o = (o', r) ->
  exists hp hv, o_pos_history o' = o_pos_history o ++ hp /\ o_velocity_history o' = o_velocity_history o ++ hv /\
    length hp = length hv /\ length hp <= iters /\
    forall t p v, nth_error hp (S t) = Some p -> nth_error hv (S t) = Some v ->
      bits01 p /\ forall i j x, entry p i j = Some x -> exists y u, entry v i j = Some y /\ nth_error (e_bits e t) j = Some u /\
        x = (if flt u (fdiv fone (fadd fone (e_exp e (fopp y)))) then fone else fzero).
Proof. exact binary_run. Qed.
Print Assumptions C42_run.
Theorem C42_session : forall c o, c_kind c = Binary -> (forall p, c_init c = Some p -> bits01 p) -> Reachable c o ->
  bits01 (s_position (o_swarm o)) /\ bits01 (s_pbest_pos (o_swarm o)) /\ Forall bits01 (o_pos_history o).
Proof. exact binary_session. Qed.
Print Assumptions C42_session.
Theorem C42_returned : forall c e pool iters o o' cost pos, c_kind c = Binary -> (forall p, c_init c = Some p -> bits01 p) -> Reachable c o ->
  optimize c e pool iters o = (o', Ok (cost, pos)) ->
  forall j x, nth_error pos j = Some x -> feq x fzero = true \/ feq x fone = true.
Proof. exact binary_returned. Qed.
Print Assumptions C42_returned.
Theorem C42_two_valued_refuted : exists c top dr e o o' cost pos p, c_kind c = Binary /\ c_init c = Some p /\ two_valued p /\
  construct c top dr = Ok o /\ optimize c e None 4 o = (o', Ok (cost, pos)) /\ length (o_pos_history o') = 4 /\
  exists x, In x pos /\ feq x fzero = false /\ feq x fone = false.
Proof. exact two_valued_returned. Qed.
Print Assumptions C42_two_valued_refuted.
(** A run in which both bits occur after the first iteration. *)
Example C42_example : d_test false (d_run (b_config None) (topo Ring false) (d_cd 0 3 2) (b_env d_obj) None 4)
  (fun o' _ _ => existsb (existsb (existsb (fun x => feq x fone))) (skipn 1 (o_pos_history o')) &&
                 existsb (existsb (existsb (fun x => feq x fzero))) (skipn 1 (o_pos_history o'))) = true.
Proof. exact b_run. Qed.

(** *** C43: the sampling rule *)
Theorem C43_rule : forall ex u vel p, binary_position ex u vel = Ok p ->
  forall i j x, entry p i j = Some x ->
  exists v w, entry vel i j = Some v /\ nth_error u j = Some w /\
    x = (if flt w (fdiv fone (fadd fone (ex (fopp v)))) then fone else fzero).
Proof. exact binary_entry. Qed.
Print Assumptions C43_rule.
Theorem C43_total : forall n d ex u vel, is_matrix n d vel -> length u = d ->
  exists p, binary_position ex u vel = Ok p /\ is_matrix n d p.
Proof. exact binary_total. Qed.
Print Assumptions C43_total.
Theorem C43_monotone : forall ex u vel vel' p p', exp_like ex -> binary_position ex u vel = Ok p -> binary_position ex u vel' = Ok p' ->
  forall i j v v' x x', entry vel i j = Some v -> entry vel' i j = Some v' -> fle v v' = true ->
    entry p i j = Some x -> entry p' i j = Some x' -> feq x fone = true -> feq x' fone = true.
Proof. exact binary_monotone. Qed.
Print Assumptions C43_monotone.
Theorem C43_shared_draws : forall ex u vel p, binary_position ex u vel = Ok p ->
  forall i i' j v x x', entry vel i j = Some v -> entry vel i' j = Some v -> entry p i j = Some x -> entry p i' j = Some x' -> x = x'.
Proof. exact equal_velocity_equal_bit. Qed.
Print Assumptions C43_shared_draws.
Theorem C43_sigmoid_real : forall x y : R, (0 < sigmoid (N := Rnum) exp x < 1)%R /\
  ((x < y)%R -> (sigmoid (N := Rnum) exp x < sigmoid (N := Rnum) exp y)%R).
Proof. exact sigmoid_real. Qed.
Print Assumptions C43_sigmoid_real.
Example C43_example : exp_like b_ex /\ feq (b_ex (F (-1))) (b_ex (F 1)) = false.
Proof. split; [exact b_ex_like|]. vm_compute. reflexivity. Qed.
