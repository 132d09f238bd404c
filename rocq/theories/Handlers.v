(** Model of /repo/pyswarms/backend/handlers.py.

    Index arrays produced by [np.nonzero] are represented by elementwise/row tests: fancy
    assignment [M[np.nonzero(mask)] = E[np.nonzero(mask)]] replaces exactly the entries
    where [mask] holds, and [M[np.nonzero(mask)[0]] = ...] replaces exactly the rows in
    which [mask] holds somewhere (repeated row indices write the same value).
    Strategies that write into their argument are modelled by returning the new contents;
    the aliasing itself is modelled in Heap.v. *)
From Coq Require Import String ZArith List Arith Bool.
From Verif Require Import Prelude Num Np.
Import ListNotations.
Local Open Scope string_scope.
Local Open Scope list_scope.

Section Handlers.
Context {N : Num}.
Definition row := list N.
(** Position and velocity matrices, swarms.py:85-86: one row per particle. *)
Definition matrix := list (list N).

(** A bounds tuple [(lb, ub)]; [b_arr] tells whether both are numpy arrays (plain Python
    lists do not support indexing by an index array). (handlers.py:51 and the other [lb, ub = bounds].) *)
Record bounds : Type := mkBounds { b_lb : row; b_ub : row; b_arr : bool }.

(** handlers.py:46-54 [_out_of_bounds]: [position < lb] and [position > ub]. *)
Definition lower (x l : N) : bool := nlt x l.
(** handlers.py:52 *)
Definition greater (x u : N) : bool := nlt u x.
(** Rows that occur in [lower_than_bound[0]] / [greater_than_bound[0]]. (handlers.py:53-54.) *)
Definition row_lower (r : row) (b : bounds) : bool := existsb (fun x => x) (map2 lower r (b_lb b)).
(** handlers.py:52, 54 *)
Definition row_greater (r : row) (b : bounds) : bool := existsb (fun x => x) (map2 greater r (b_ub b)).
(** The loop test of handlers.py:202: some index is out of bounds. *)
Definition any_out (m : matrix) (b : bounds) : bool :=
  existsb (fun r => row_lower r b || row_greater r b) m.

(** Broadcasting a (n,d) matrix against (d,) bounds. (handlers.py:52-53, 164-169: comparison with the bounds.) *)
Definition bounds_fit (m : matrix) (b : bounds) : bool :=
  Nat.eqb (length (b_lb b)) (length (b_ub b)) &&
  forallb (fun r => Nat.eqb (length r) (length (b_lb b))) m.

(** ** BoundaryHandler *)

(** handlers.py:164-169 [nearest] *)
Definition nearest_el (x l u : N) : N :=
  let p := if lower x l then l else x in
  if greater x u then u else p.
(** handlers.py:164-169, the whole matrix *)
Definition nearest (b : bounds) (pos : matrix) : matrix :=
  map (fun r => map3 nearest_el r (b_lb b) (b_ub b)) pos.

(** handlers.py:203-210, one pass of the loop of [reflective] *)
Definition reflect_el (x l u : N) : N :=
  let p := if lower x l then nsub (nmul (nofZ 2) l) x else x in
  if greater x u then nsub (nmul (nofZ 2) u) p else p.
(** handlers.py:203-210, the whole matrix *)
Definition reflect_pass (b : bounds) (pos : matrix) : matrix :=
  map (fun r => map3 reflect_el r (b_lb b) (b_ub b)) pos.
(** handlers.py:197-215 [reflective]; the [while] loop gets [fuel] passes. *)
Fixpoint reflective_loop (fuel : nat) (b : bounds) (pos : matrix) : res matrix :=
  if any_out pos b then
    match fuel with
    | O => Err OutOfFuel
    | S f => reflective_loop f b (reflect_pass b pos)
    end
  else Ok pos.
(** handlers.py:197-215; without numpy bounds [2 * lb[idx] - ...] is a TypeError. *)
Definition reflective (fuel : nat) (b : bounds) (pos : matrix) : res matrix :=
  if any_out pos b && negb (b_arr b) then Err TypeError   (* list[ndarray] *)
  else reflective_loop fuel b pos.

(** handlers.py:257-266, the coefficient of one coordinate *)
Definition sigma_el (x m l u : N) : N :=
  let v := nsub x m in
  let s := if lower x l then ndiv (nsub l m) v else nofZ 1 in
  if greater x u then ndiv (nsub u m) v else s.
(** handlers.py:267-281, one particle *)
Definition shrink_row (b : bounds) (x m : row) : res row :=
  do s <- np_min (map4 sigma_el x m (b_lb b) (b_ub b));
  Ok (if row_lower x b || row_greater x b
      then map2 (fun xi mi => nadd mi (nmul s (nsub xi mi))) x m
      else x).
(** handlers.py:249-283 [shrink] *)
Definition shrink (mem : option matrix) (b : bounds) (pos : matrix) : res matrix :=
  match mem with
  | None => Ok pos
  | Some m =>
      if negb (b_arr b) then Err TypeError
      else if negb (same_shape pos m) then Err ValueError
      else mapM (fun p => shrink_row b (fst p) (snd p)) (combine pos m)
  end.

(** handlers.py:297-303 / 304-310, the resampled vector [(ub - lb) * u + lb] *)
Definition resample (b : bounds) (u : row) : row :=
  map3 (fun l h ui => nadd (nmul (nsub h l) ui) l) (b_lb b) (b_ub b) u.
(** handlers.py:291-311 [random]; [ug] and [ul] are the two [random_sample] draws *)
Definition random_bh (ug ul : row) (b : bounds) (pos : matrix) : res matrix :=
  if negb (forallb (fun r => Nat.eqb (length r) (length ug) && Nat.eqb (length r) (length ul)) pos)
  then Err ValueError
  else Ok (map (fun r =>
         if row_lower r b then resample b ul
         else if row_greater r b then resample b ug
         else r) pos).

(** handlers.py:340-345, one coordinate *)
Definition intermediate_el (x m l u : N) : N :=
  let p := if lower x l then nmul (ndec 1 2) (nadd m l) else x in
  if greater x u then nmul (ndec 1 2) (nadd m u) else p.
(** handlers.py:331-347 [intermediate] *)
Definition intermediate (mem : option matrix) (b : bounds) (pos : matrix) : res matrix :=
  match mem with
  | None => Ok pos
  | Some m =>
      if negb (b_arr b) then Err TypeError
      else if negb (same_shape pos m) then Err ValueError
      else Ok (map2 (fun x mr => map4 intermediate_el x mr (b_lb b) (b_ub b)) pos m)
  end.

(** handlers.py:377-392, one coordinate *)
Definition periodic_el (x l u : N) : N :=
  let s := nabs (nsub u l) in
  let p := if lower x l then nsub u (nmod (nsub l x) s) else x in
  if greater x u then nadd l (nmod (nsub p u) s) else p.
(** handlers.py:373-393 [periodic] *)
Definition periodic (b : bounds) (pos : matrix) : matrix :=
  map (fun r => map3 periodic_el r (b_lb b) (b_ub b)) pos.

(** handlers.py:115-144 [BoundaryHandler.__call__]: look the strategy up (KeyError when
    unknown), apply it, and give the new [memory] attribute (written by shrink and
    intermediate only). *)
Record bh_draws : Type := mkBhDraws { bd_greater : row; bd_lower : row; bd_fuel : nat }.
(** handlers.py:56-62 [_get_all_strategies]: the methods of the class *)
Definition bh_known (s : string) : bool :=
  existsb (String.eqb s)
    ["nearest"; "reflective"; "shrink"; "random"; "intermediate"; "periodic"].
(** handlers.py:115-144 *)
Definition bh_call (strategy : string) (dr : bh_draws) (mem : option matrix)
    (b : bounds) (pos : matrix) : res (matrix * option matrix) :=
  if negb (bh_known strategy) then Err KeyError
  else if negb (bounds_fit pos b) then Err ValueError
  else if String.eqb strategy "nearest" then Ok (nearest b pos, mem)
  else if String.eqb strategy "reflective" then
    do p <- reflective (bd_fuel dr) b pos; Ok (p, mem)
  else if String.eqb strategy "shrink" then
    do p <- shrink mem b pos; Ok (p, Some p)
  else if String.eqb strategy "random" then
    do p <- random_bh (bd_greater dr) (bd_lower dr) b pos; Ok (p, mem)
  else if String.eqb strategy "intermediate" then
    do p <- intermediate mem b pos; Ok (p, Some p)
  else Ok (periodic b pos, mem).

(** ** VelocityHandler *)

(** A clamp [(min, max)], scalars being repeated over the dimensions. (handlers.py:454 [min_velocity, max_velocity = clamp].) *)
Definition clamp_t := (row * row)%type.
(** handlers.py:455-456: comparison with the clamp *)
Definition clamp_fit (m : matrix) (c : clamp_t) : bool :=
  forallb (fun r => Nat.eqb (length r) (length (fst c)) && Nat.eqb (length r) (length (snd c))) m.

(** handlers.py:451-459 [__apply_clamp]: both masks are taken on the input velocity *)
Definition clamp_el (v a b : N) : N :=
  let c := if nle v a then a else v in
  if nle b v then b else c.
(** handlers.py:451-459, the whole matrix *)
Definition apply_clamp (c : clamp_t) (vel : matrix) : res matrix :=
  if clamp_fit vel c
  then Ok (map (fun r => map3 clamp_el r (fst c) (snd c)) vel)
  else Err ValueError.
(** [if clamp is not None], handlers.py:463-467, 491-492, 525-526 *)
Definition maybe_clamp (c : option clamp_t) (vel : matrix) : res matrix :=
  match c with None => Ok vel | Some c => apply_clamp c vel end.

(** Keyword arguments of the velocity handler; [None] = keyword absent. [vk_bounds] can be
    present with the Python value [None]. (handlers.py:484-546 [kwargs].) *)
Record vh_kwargs : Type := mkVk {
  vk_position : option matrix;
  vk_bounds : option (option bounds);
  vk_z : option N
}.

(** [kwargs["position"], kwargs["bounds"]] followed by unpacking the bounds. (handlers.py:517-519, 536-538.) *)
Definition vk_get (k : vh_kwargs) : res (matrix * bounds) :=
  match vk_position k, vk_bounds k with
  | Some p, Some (Some b) =>
      if bounds_fit p b then Ok (p, b) else Err ValueError
  | Some _, Some None => Err TypeError
  | _, _ => Err KeyError
  end.

(** handlers.py:461-468 [unmodified] *)
Definition vh_unmodified (c : option clamp_t) (vel : matrix) : res matrix := maybe_clamp c vel.

(** handlers.py:484-497 [adjust]; returns the velocity and the new memory *)
Definition vh_adjust (c : option clamp_t) (mem : option matrix) (k : vh_kwargs) (vel : matrix)
  : res (matrix * option matrix) :=
  match vk_position k with
  | None => Err KeyError
  | Some p =>
      match mem with
      | None => Ok (vel, Some p)
      | Some m =>
          if negb (same_shape p m) then Err ValueError
          else do v <- maybe_clamp c (map2 (map2 nsub) p m); Ok (v, Some p)
      end
  end.

(** handlers.py:521-524, one particle *)
Definition invert_row (b : bounds) (z : N) (p v : row) : row :=
  let v1 := if row_lower p b then map (nmul (nopp z)) v else v in
  if row_greater p b then map (nmul (nopp z)) v1 else v1.
(** handlers.py:511-531 [invert] *)
Definition vh_invert (c : option clamp_t) (k : vh_kwargs) (vel : matrix) : res matrix :=
  let z := match vk_z k with None => ndec 1 2 | Some z => z end in
  do (p, b) <- vk_get k;
  if negb (same_shape vel p) then Err IndexError
  else maybe_clamp c (map2 (invert_row b z) p vel).

(** handlers.py:535-546 [zero]; the clamp is not used *)
Definition zero_row (b : bounds) (p v : row) : row :=
  if row_lower p b || row_greater p b then map (fun _ => nofZ 0) v else v.
(** handlers.py:535-546, the whole matrix *)
Definition vh_zero (k : vh_kwargs) (vel : matrix) : res matrix :=
  do (p, b) <- vk_get k;
  if negb (same_shape vel p) then Err IndexError
  else Ok (map2 (zero_row b) p vel).

(** handlers.py:420-449 [VelocityHandler.__call__] *)
Definition vh_known (s : string) : bool :=
  existsb (String.eqb s) ["unmodified"; "adjust"; "invert"; "zero"].
(** handlers.py:420-449: unknown strategies raise KeyError *)
Definition vh_call (strategy : string) (c : option clamp_t) (mem : option matrix)
    (k : vh_kwargs) (vel : matrix) : res (matrix * option matrix) :=
  if negb (vh_known strategy) then Err KeyError
  else if String.eqb strategy "unmodified" then
    do v <- vh_unmodified c vel; Ok (v, mem)
  else if String.eqb strategy "adjust" then vh_adjust c mem k vel
  else if String.eqb strategy "invert" then
    do v <- vh_invert c k vel; Ok (v, mem)
  else do v <- vh_zero k vel; Ok (v, mem).

(** ** OptionsHandler *)

(** Option values: Python ints or floats. (handlers.py:606-764 [start_opts] values.) *)
Inductive pyval : Type := PInt (z : Z) | PFloat (x : N).
(** Arithmetic on an option value turns an int into a float. *)
Definition pnum (v : pyval) : N := match v with PInt z => nofZ z | PFloat x => x end.
(** [self.options], [swarm.options] (swarms.py:90) *)
Definition options := dict pyval.

(** handlers.py:640-764 [kwargs]: iternow, itermax, end_opts, d1, d2, n *)
Record oh_kwargs : Type := mkOk {
  ok_iternow : option Z;
  ok_itermax : option Z;
  ok_end : option (dict N);        (* end_opts *)
  ok_d1 : option N;
  ok_d2 : option N;
  ok_n : option N
}.

(** Library functions outside IEEE: [math.exp], [**], and [np.random.rand()] per option. (handlers.py:661, 722, 757-758.) *)
Record oh_lib : Type := mkOhLib { l_exp : N -> N; l_pow : N -> N -> N; l_rand : string -> N }.

(** [start_opts[opt]], handlers.py:653-654, 659, 687-688, 693, 717, 747-748, 754; operators.py:128-130 *)
Definition num_of (o : options) (k : string) : res N :=
  of_option KeyError (option_map pnum (dget o k)).

(** handlers.py:651-658, 685-692, 745-752: default end values, overridden by end_opts *)
Definition end_value (start : options) (opt : string) (k : oh_kwargs) : res N :=
  do c1 <- num_of start "c1";
  do c2 <- num_of start "c2";
  let defaults := [("w", ndec 4 10); ("c1", nmul (ndec 8 10) c1); ("c2", nmul (nofZ 1) c2)] in
  match match ok_end k with Some e => dget e opt | None => None end with
  | Some v => Ok v
  | None => of_option KeyError (dget defaults opt)
  end.

(** handlers.py:662, 698-699, 757-758 [kwargs["iternow"]], [kwargs["itermax"]] *)
Definition iters_of (k : oh_kwargs) : res (Z * Z) :=
  do i <- of_option KeyError (ok_iternow k);
  do m <- of_option KeyError (ok_itermax k);
  Ok (i, m).

(** handlers.py:642-649, 740-743 [if "d1" not in kwargs: ... else: ...] *)
Definition dflt (o : option N) (d : N) : N := match o with Some x => x | None => d end.

(** handlers.py:640-668 [exp_decay] *)
Definition oh_exp_decay (lib : oh_lib) (start : options) (opt : string) (k : oh_kwargs) : res N :=
  let d1 := dflt (ok_d1 k) (ndec 2 10) in
  let d2 := dflt (ok_d2 k) (nofZ 7) in
  do e <- end_value start opt k;
  do s <- num_of start opt;
  do (i, m) <- iters_of k;
  if Z.eqb m 0 then Err ZeroDivisionError
  else
    let den := nadd (nofZ 1) (ndiv (nmul d2 (nofZ i)) (nofZ m)) in
    if neq den (nofZ 0) then Err ZeroDivisionError
    else Ok (nmul (nsub (nsub s e) d1) (l_exp lib (ndiv (nofZ 1) den))).

(** handlers.py:684-705 [lin_variation] *)
Definition oh_lin_variation (start : options) (opt : string) (k : oh_kwargs) : res N :=
  do e <- end_value start opt k;
  do s <- num_of start opt;
  do (i, m) <- iters_of k;
  if Z.eqb m 0 then Err ZeroDivisionError
  else Ok (nadd e (ndiv (nmul (nsub s e) (nofZ (m - i))) (nofZ m))).

(** handlers.py:717-722 [random] *)
Definition oh_random (lib : oh_lib) (start : options) (opt : string) (k : oh_kwargs) : res N :=
  do s <- num_of start opt;
  do eo <- of_option KeyError (ok_end k);
  let e := match dget eo opt with Some e => e | None => nadd s (nofZ 1) end in
  Ok (nadd s (nmul (nsub e s) (l_rand lib opt))).

(** handlers.py:739-764 [nonlin_mod]; a negative base with a fractional exponent would be a
    complex number and is outside the model *)
Definition oh_nonlin_mod (lib : oh_lib) (start : options) (opt : string) (k : oh_kwargs) : res N :=
  let n := dflt (ok_n k) (ndec 12 10) in
  do e <- end_value start opt k;
  do s <- num_of start opt;
  do (i, m) <- iters_of k;
  if Z.ltb (m - i) 0 then Err Unmodelled
  else
    let den := l_pow lib (nofZ m) n in
    if neq den (nofZ 0) then Err ZeroDivisionError
    else Ok (nadd e (nmul (nsub s e) (ndiv (l_pow lib (nofZ (m - i)) n) den))).

(** Look the strategy of one option up and run it (handlers.py:613-615). *)
Definition oh_one (lib : oh_lib) (strategy : string) (start : options) (opt : string)
    (k : oh_kwargs) : res N :=
  if String.eqb strategy "exp_decay" then oh_exp_decay lib start opt k
  else if String.eqb strategy "lin_variation" then oh_lin_variation start opt k
  else if String.eqb strategy "random" then oh_random lib start opt k
  else if String.eqb strategy "nonlin_mod" then oh_nonlin_mod lib start opt k
  else Err KeyError.

(** handlers.py:606-623 [OptionsHandler.__call__]: iterate over the keys of [start_opts],
    writing into a copy *)
Fixpoint oh_loop (lib : oh_lib) (strategy : dict string) (start : options) (k : oh_kwargs)
    (keys : list string) (ret : options) : res options :=
  match keys with
  | [] => Ok ret
  | opt :: r =>
      match dget strategy opt with
      | None => oh_loop lib strategy start k r ret
      | Some s =>
          do v <- oh_one lib s start opt k;
          oh_loop lib strategy start k r (dset ret opt (PFloat v))
      end
  end.
(** handlers.py:606-623: no strategy returns [start_opts] itself *)
Definition oh_call (lib : oh_lib) (strategy : dict string) (start : options) (k : oh_kwargs)
  : res options :=
  match strategy with
  | [] => Ok start
  | _ => oh_loop lib strategy start k (dkeys start) start
  end.

End Handlers.
Arguments row _ : clear implicits.
Arguments matrix _ : clear implicits.
Arguments bounds _ : clear implicits.
Arguments bh_draws _ : clear implicits.
Arguments clamp_t _ : clear implicits.
Arguments vh_kwargs _ : clear implicits.
Arguments pyval _ : clear implicits.
Arguments options _ : clear implicits.
Arguments oh_kwargs _ : clear implicits.
Arguments oh_lib _ : clear implicits.
