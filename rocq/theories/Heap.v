(** Array objects and aliasing: the code of handlers.py, operators.py and the four [optimize]
    methods once more, with numpy arrays as references into a heap, so that in-place
    assignment, views and fresh allocation are visible.  The values computed are those of the
    pure model (proved in HeapFacts.v, HeapRun.v).  References: position, velocity and
    personal-best matrices, best_pos, the handlers' memories and the history entries.  Cost
    vectors, options and scalars stay values. *)
From Coq Require Import String ZArith List Arith Bool.
From Verif Require Import Prelude F64 Num Np Handlers Swarms Operators Generators Topology Optimizers.
Import ListNotations.
Local Open Scope string_scope.
Local Open Scope list_scope.
Local Open Scope nat_scope.

(** Address [a] is the [a]-th array ever allocated. (All numpy matrices of swarms.py:84-109, handlers.py and base_single.py:126-144.) *)
Definition heap := list fmatrix.
(** A reference to an array. *)
Definition addr := nat.
(** A computation on the heap which may raise. *)
Definition H (A : Type) := heap -> heap * res A.
(** return *)
Definition hret {A} (a : A) : H A := fun h => (h, Ok a).
(** raise *)
Definition hfail {A} (x : exn) : H A := fun h => (h, Err x).
(** A step that does not touch the heap. *)
Definition hlift {A} (r : res A) : H A := fun h => (h, r).
(** Sequencing. *)
Definition hbind {A B} (m : H A) (f : A -> H B) : H B :=
  fun h => match m h with (h', Ok a) => f a h' | (h', Err x) => (h', Err x) end.
Notation "'ho' x <- e ; f" := (hbind e (fun x => f))
  (at level 200, x pattern, e at level 100, f at level 200, right associativity).

(** Contents after a write. *)
Fixpoint upd {A} (l : list A) (i : nat) (x : A) : list A :=
  match l, i with
  | [], _ => []
  | _ :: r, O => x :: r
  | y :: r, S i' => y :: upd r i' x
  end.
(** A new array: the result of arithmetic, [np.where], [copy()] or fancy indexing. *)
Definition alloc (m : fmatrix) : H addr := fun h => (h ++ [m], Ok (length h)).
(** A dangling reference does not occur ([Unmodelled], proved unreachable). (Reading the contents of an array.) *)
Definition read (a : addr) : H fmatrix := fun h => (h, of_option Unmodelled (nth_error h a)).
(** In-place assignment, handlers.py:204-210, 268-281, 297-310, 340-345, 384-392, 521-524, 540-541; operators.py:198. *)
Definition write (a : addr) (m : fmatrix) : H unit := fun h => (upd h a m, Ok tt).

(** *** Masks and fancy assignment *)

(** Masks such as [position < lb], handlers.py:52-53. *)
Definition bmatrix := list (list bool).
(** handlers.py:46-54 *)
Definition mask_lower (b : bounds F64num) (p : fmatrix) : bmatrix := map (fun r => map2 (lower (N := F64num)) r (b_lb b)) p.
(** handlers.py:52 *)
Definition mask_greater (b : bounds F64num) (p : fmatrix) : bmatrix := map (fun r => map2 (greater (N := F64num)) r (b_ub b)) p.
(** handlers.py:202 *)
Definition any_mask (k : bmatrix) : bool := existsb (existsb (fun x => x)) k.
(** [m[mask] = vals[mask]] and [m[rows of mask] = vals[rows of mask]]. (handlers.py:204-210, 340-345, 384-392.) *)
Definition put (k : bmatrix) (vals m : fmatrix) : fmatrix :=
  map3 (map3 (fun (b : bool) (v x : f64) => if b then v else x)) k vals m.
(** handlers.py:268-281, 297-310, 521-524, 540-541 *)
Definition put_rows (k : bmatrix) (vals m : fmatrix) : fmatrix :=
  map3 (fun br (vr mr : frow) => if existsb (fun x => x) br then vr else mr) k vals m.

(** *** BoundaryHandler strategies on references; they return a reference and the new memory *)

(** handlers.py:164-169: [np.where] allocates *)
Definition h_nearest (b : bounds F64num) (a : addr) : H addr :=
  ho p <- read a;
  ho n1 <- alloc (map (fun r => map2 (fun x l : f64 => if lower (N := F64num) x l then l else x) r (b_lb b)) p);
  ho p1 <- read n1;
  alloc (map2 (fun r r1 => map3 (fun x y u : f64 => if greater (N := F64num) x u then u else y) r r1 (b_ub b)) p p1).

(** handlers.py:197-215: writes into [position] *)
Fixpoint h_reflective (fuel : nat) (b : bounds F64num) (a : addr) : H addr :=
  ho p <- read a;
  let kl := mask_lower b p in
  let kg := mask_greater b p in
  if any_mask kl || any_mask kg then
    match fuel with
    | O => hfail OutOfFuel
    | S f =>
        ho _ <- write a (put kl (map (fun r => map2 (fun l x : f64 => fsub (fmul (fofZ 2) l) x) (b_lb b) r) p) p);
        ho p1 <- read a;
        ho _ <- write a (put kg (map (fun r => map2 (fun u x : f64 => fsub (fmul (fofZ 2) u) x) (b_ub b) r) p1) p1);
        h_reflective f b a
    end
  else hret a.

(** handlers.py:249-283 *)
Definition h_shrink (mem : option addr) (b : bounds F64num) (a : addr) : H (addr * option addr) :=
  match mem with
  | None => hret (a, Some a)
  | Some am =>
      ho p <- read a;
      ho m <- read am;
      if negb (b_arr b) then hfail TypeError
      else if negb (same_shape p m) then hfail ValueError
      else
        let kl := mask_lower b p in
        let kg := mask_greater b p in
        let vel := map2 (map2 (fun x y : f64 => fsub x y)) p m in
        let quot bd := map2 (fun mr vr => map3 (fun l y v : f64 => fdiv (fsub l y) v) bd mr vr) m vel in
        let ones := map (map (fun _ : f64 => fofZ 1)) p in
        let sigma := put kg (quot (b_ub b)) (put kl (quot (b_lb b)) ones) in
        ho ms <- hlift (mapM (np_min (N := F64num)) sigma);
        let moved m := map3 (fun mr s vr => map2 (fun y v : f64 => fadd y (fmul s v)) mr vr) m ms vel in
        ho m1 <- read am;
        ho _ <- write a (put_rows kl (moved m1) p);
        ho m2 <- read am;
        ho p1 <- read a;
        ho _ <- write a (put_rows kg (moved m2) p1);
        hret (a, Some a)
  end.

(** handlers.py:291-311 *)
Definition h_random (ug ul : frow) (b : bounds F64num) (a : addr) : H addr :=
  ho p <- read a;
  if negb (forallb (fun r => Nat.eqb (length r) (length ug) && Nat.eqb (length r) (length ul)) p) then hfail ValueError
  else
    let kl := mask_lower b p in
    let kg := mask_greater b p in
    ho _ <- write a (put_rows kg (map (fun _ => resample (N := F64num) b ug) p) p);
    ho p1 <- read a;
    ho _ <- write a (put_rows kl (map (fun _ => resample (N := F64num) b ul) p1) p1);
    hret a.

(** handlers.py:331-347 *)
Definition h_intermediate (mem : option addr) (b : bounds F64num) (a : addr) : H (addr * option addr) :=
  match mem with
  | None => hret (a, Some a)
  | Some am =>
      ho p <- read a;
      ho m <- read am;
      if negb (b_arr b) then hfail TypeError
      else if negb (same_shape p m) then hfail ValueError
      else
        let kl := mask_lower b p in
        let kg := mask_greater b p in
        let half (m : fmatrix) bd := map (fun mr => map2 (fun y l : f64 => fmul (fdec 1 2) (fadd y l)) mr bd) m in
        ho _ <- write a (put kl (half m (b_lb b)) p);
        ho m1 <- read am;
        ho p1 <- read a;
        ho _ <- write a (put kg (half m1 (b_ub b)) p1);
        hret (a, Some a)
  end.

(** handlers.py:373-393 *)
Definition h_periodic (b : bounds F64num) (a : addr) : H addr :=
  ho p <- read a;
  let kl := mask_lower b p in
  let kg := mask_greater b p in
  let size := map2 (fun l u : f64 => fabs (fsub u l)) (b_lb b) (b_ub b) in
  let low := map (fun r => map4 (fun x l u s : f64 => fsub u (fnpmod (fsub l x) s)) r (b_lb b) (b_ub b) size) in
  let high := map (fun r => map4 (fun x l u s : f64 => fadd l (fnpmod (fsub x u) s)) r (b_lb b) (b_ub b) size) in
  ho _ <- write a (put kl (low p) p);
  ho p1 <- read a;
  ho _ <- write a (put kg (high p1) p1);
  hret a.

(** handlers.py:115-144 *)
Definition h_bh (strategy : string) (dr : bh_draws F64num) (mem : option addr) (b : bounds F64num) (a : addr)
  : H (addr * option addr) :=
  if negb (bh_known strategy) then hfail KeyError
  else
    ho p <- read a;
    if negb (bounds_fit (N := F64num) p b) then hfail ValueError
    else if String.eqb strategy "nearest" then ho x <- h_nearest b a; hret (x, mem)
    else if String.eqb strategy "reflective" then
      if any_out (N := F64num) p b && negb (b_arr b) then hfail TypeError
      else ho x <- h_reflective (bd_fuel dr) b a; hret (x, mem)
    else if String.eqb strategy "shrink" then h_shrink mem b a
    else if String.eqb strategy "random" then ho x <- h_random (bd_greater dr) (bd_lower dr) b a; hret (x, mem)
    else if String.eqb strategy "intermediate" then h_intermediate mem b a
    else ho x <- h_periodic b a; hret (x, mem).

(** *** VelocityHandler strategies *)

(** handlers.py:451-459: [np.where] allocates twice *)
Definition h_clamp (c : option (clamp_t F64num)) (a : addr) : H addr :=
  match c with
  | None => hret a
  | Some c =>
      ho v <- read a;
      if clamp_fit (N := F64num) v c then
        ho n1 <- alloc (map (fun r => map2 (fun x l : f64 => if fle x l then l else x) r (fst c)) v);
        ho v1 <- read n1;
        alloc (map2 (fun r r1 => map3 (fun x y u : f64 => if fle u x then u else y) r r1 (snd c)) v v1)
      else hfail ValueError
  end.
(** handlers.py:484-497 *)
Definition h_adjust (c : option (clamp_t F64num)) (mem : option addr) (ap a : addr) : H (addr * option addr) :=
  match mem with
  | None => hret (a, Some ap)
  | Some am =>
      ho p <- read ap;
      ho m <- read am;
      if negb (same_shape p m) then hfail ValueError
      else ho n <- alloc (map2 (map2 (fun x y : f64 => fsub x y)) p m); ho x <- h_clamp c n; hret (x, Some ap)
  end.
(** handlers.py:511-531 with the default z = 0.5 (the only value the optimizers use) *)
Definition h_invert (c : option (clamp_t F64num)) (bo : option (bounds F64num)) (ap a : addr) : H addr :=
  ho p <- read ap;
  ho b <- hlift (match bo with Some b => if bounds_fit (N := F64num) p b then Ok b else Err ValueError | None => Err TypeError end);
  ho v <- read a;
  if negb (same_shape v p) then hfail IndexError
  else
    let z := fopp (fdec 1 2) in
    ho _ <- write a (put_rows (mask_lower b p) (map (map (fun x : f64 => fmul z x)) v) v);
    ho v1 <- read a;
    ho _ <- write a (put_rows (mask_greater b p) (map (map (fun x : f64 => fmul z x)) v1) v1);
    h_clamp c a.
(** handlers.py:535-546 *)
Definition h_zero (bo : option (bounds F64num)) (ap a : addr) : H addr :=
  ho p <- read ap;
  ho b <- hlift (match bo with Some b => if bounds_fit (N := F64num) p b then Ok b else Err ValueError | None => Err TypeError end);
  ho v <- read a;
  if negb (same_shape v p) then hfail IndexError
  else
    ho _ <- write a (put_rows (mask_lower b p) (map (map (fun _ : f64 => fofZ 0)) v) v);
    ho v1 <- read a;
    ho _ <- write a (put_rows (mask_greater b p) (map (map (fun _ : f64 => fofZ 0)) v1) v1);
    hret a.
(** handlers.py:420-449 *)
Definition h_vh (strategy : string) (c : option (clamp_t F64num)) (mem : option addr) (bo : option (bounds F64num)) (ap a : addr)
  : H (addr * option addr) :=
  if negb (vh_known strategy) then hfail KeyError
  else if String.eqb strategy "unmodified" then ho x <- h_clamp c a; hret (x, mem)
  else if String.eqb strategy "adjust" then h_adjust c mem ap a
  else if String.eqb strategy "invert" then ho x <- h_invert c bo ap a; hret (x, mem)
  else ho x <- h_zero bo ap a; hret (x, mem).

(** *** The swarm and the optimizer with references *)

(** [best_pos]: the empty default, row [i] of a matrix (a view), or a matrix. (swarms.py:92-96.) *)
Inductive hbest : Type := HEmpty | HRow (a : addr) (i : nat) | HMat (a : addr).
(** [hs_rest] carries the attributes that stay values; its four matrix attributes are unused. (swarms.py:84-109.) *)
Record hswarm : Type := mkHs { hs_position : addr; hs_velocity : addr; hs_pbest_pos : addr; hs_best_pos : hbest; hs_rest : fswarm }.
(** The optimizer object, as [ostate] in Optimizers.v (base_single.py:93-124). *)
Record hstate : Type := mkHst {
  hs : hswarm; h_top : topology; h_bmem : option addr; h_vmem : option addr;
  h_cost_history : list f64; h_mean_pbest_history : list f64; h_mean_neighbor_history : list f64;
  h_pos_history : list addr; h_velocity_history : list addr }.

(** Looking a swarm up in the heap. (swarms.py:92-96.) *)
Definition best_at (h : heap) (x : hbest) : res fbestpos :=
  match x with
  | HEmpty => Ok BPEmpty
  | HRow a i => do m <- of_option Unmodelled (nth_error h a); do r <- of_option Unmodelled (nth_error m i); Ok (BPVec r)
  | HMat a => do m <- of_option Unmodelled (nth_error h a); Ok (BPMat m)
  end.
(** swarms.py:84-109: the value of the whole swarm *)
Definition swarm_at (h : heap) (s : hswarm) : res fswarm :=
  do p <- of_option Unmodelled (nth_error h (hs_position s));
  do v <- of_option Unmodelled (nth_error h (hs_velocity s));
  do pp <- of_option Unmodelled (nth_error h (hs_pbest_pos s));
  do bp <- best_at h (hs_best_pos s);
  let r := hs_rest s in
  Ok (mkSwarm (N := F64num) p v (s_n r) (s_d r) (s_options r) pp bp (s_pbest_cost r) (s_best_cost r) (s_best_np r) (s_current_cost r)).
(** Reading the swarm, e.g. operators.py:125-143. *)
Definition h_swarm (s : hswarm) : H fswarm := fun h => (h, swarm_at h s).

(** operators.py:62-79: both results of [np.where] are new arrays *)
Definition h_compute_pbest (s : hswarm) : H (addr * list f64) :=
  ho sw <- h_swarm s;
  ho pc <- hlift (compute_pbest (N := F64num) sw);
  ho a <- alloc (fst pc);
  hret (a, snd pc).
(** [compute_gbest]: star.py:70-76 and pyramid.py:70-71 return a row of [pbest_pos], which is a
    view, or the old [best_pos]; the others index with an array, which copies. *)
Definition h_compute_gbest (te : topo_env) (ga : gargs) (t : topology) (s : hswarm) : H (topology * res (hbest * f64 * bool)) :=
  ho sw <- h_swarm s;
  let (t', r) := compute_gbest te ga t sw in
  match r with
  | Err x => hret (t', Err x)
  | Ok (bp, bc, np) =>
      let keep := match t_kind t with
                  | Star => match np_min (N := F64num) (s_pbest_cost sw) with Ok m => negb (flt m (s_best_cost sw)) | Err _ => true end
                  | _ => false end in
      if keep then hret (t', Ok (hs_best_pos s, bc, np))
      else match bp with
           | BPEmpty => hret (t', Ok (HEmpty, bc, np))
           | BPMat m => ho a <- alloc m; hret (t', Ok (HMat a, bc, np))
           | BPVec _ => ho i <- hlift (np_argmin (N := F64num) (s_pbest_cost sw)); hret (t', Ok (HRow (hs_pbest_pos s) i, bc, np))
           end
  end.
(** operators.py:125-157: [temp_velocity] is new, the handler may write into it *)
Definition h_compute_velocity (dr : vel_draws F64num) (vh : string) (vmem : option addr) (s : hswarm)
    (clamp : option (clamp_t F64num)) (b : option (bounds F64num)) : H (addr * option addr) :=
  ho sw <- h_swarm s;
  ho c1 <- hlift (num_of (N := F64num) (s_options sw) "c1");
  ho c2 <- hlift (num_of (N := F64num) (s_options sw) "c2");
  ho w <- hlift (num_of (N := F64num) (s_options sw) "w");
  let x := s_position sw in
  ho best <- hlift (best_rows (N := F64num) (length x) (s_d sw) (s_best_pos sw));
  if negb (same_shape x (s_pbest_pos sw) && same_shape x best && same_shape x (s_velocity sw)
           && same_shape x (vd_u1 dr) && same_shape x (vd_u2 dr))
  then hfail ValueError
  else
    ho a <- alloc (velocity_mat (N := F64num) c1 c2 w (vd_u1 dr) (vd_u2 dr) x (s_velocity sw) (s_pbest_pos sw) best);
    h_vh vh clamp vmem b (hs_position s) a.
(** operators.py:196-210: [position.copy()], then [+=] and the handler write into the copy *)
Definition h_compute_position (dr : bh_draws F64num) (bh : string) (bmem : option addr) (s : hswarm) (b : option (bounds F64num))
  : H (addr * option addr) :=
  ho x <- read (hs_position s);
  ho a <- alloc x;
  ho x' <- read a;
  ho v <- read (hs_velocity s);
  if negb (same_shape x' v) then hfail ValueError
  else
    ho _ <- write a (map2 (map2 (fun p q : f64 => fadd p q)) x' v);
    match b with None => hret (a, bmem) | Some b => h_bh bh dr bmem b a end.

(** Attribute assignments of values, e.g. global_best.py:204, 209, 239. *)
Definition h_set_rest (s : hswarm) (r : fswarm) : hswarm := mkHs (hs_position s) (hs_velocity s) (hs_pbest_pos s) (hs_best_pos s) r.
(** [self.swarm.x = ...], global_best.py:204-246 *)
Definition h_with_swarm (o : hstate) (s : hswarm) : hstate :=
  mkHst s (h_top o) (h_bmem o) (h_vmem o) (h_cost_history o) (h_mean_pbest_history o) (h_mean_neighbor_history o) (h_pos_history o) (h_velocity_history o).
(** [self.top] (base.py:31) *)
Definition h_with_top (o : hstate) (t : topology) : hstate :=
  mkHst (hs o) t (h_bmem o) (h_vmem o) (h_cost_history o) (h_mean_pbest_history o) (h_mean_neighbor_history o) (h_pos_history o) (h_velocity_history o).
(** [self.bh.memory = ...], global_best.py:198 *)
Definition h_with_bmem (o : hstate) (x : option addr) : hstate :=
  mkHst (hs o) (h_top o) x (h_vmem o) (h_cost_history o) (h_mean_pbest_history o) (h_mean_neighbor_history o) (h_pos_history o) (h_velocity_history o).
(** [self.vh.memory = ...], global_best.py:199 *)
Definition h_with_vmem (o : hstate) (x : option addr) : hstate :=
  mkHst (hs o) (h_top o) (h_bmem o) x (h_cost_history o) (h_mean_pbest_history o) (h_mean_neighbor_history o) (h_pos_history o) (h_velocity_history o).
(** base_single.py:126-144: the array objects themselves are appended *)
Definition h_populate (o : hstate) (best mean_pbest mean_neighbor : f64) (pos vel : addr) : hstate :=
  mkHst (hs o) (h_top o) (h_bmem o) (h_vmem o) (h_cost_history o ++ [best]) (h_mean_pbest_history o ++ [mean_pbest])
    (h_mean_neighbor_history o ++ [mean_neighbor]) (h_pos_history o ++ [pos]) (h_velocity_history o ++ [vel]).

(** *** The loop; the line references are those of Optimizers.v *)
(** As [step] in Optimizers.v. *)
Inductive hstep : Type := HNext (o : hstate) (q : list bool) | HBreak (o : hstate) | HRaise (o : hstate) (e : exn).
(** global_best.py:209-237, local_best.py:232-265, general_optimizer.py:247-277, binary.py:195-229 *)
Definition h_evaluate (c : config) (e : env) (pool : option nat) (i : nat) (h : heap) (o : hstate) (q : list bool) : heap * hstep :=
  let s := hs o in
  match (ho p <- read (hs_position s); hlift (compute_objective_function (N := F64num) pool (e_obj e i) p)) h with
  | (h, Err x) => (h, HRaise o x)
  | (h, Ok cost) =>
      let s1 := h_set_rest s (set_current_cost (hs_rest s) cost) in
      match h_compute_pbest s1 h with
      | (h, Err x) => (h, HRaise (h_with_swarm o s1) x)
      | (h, Ok (pp, pc)) =>
          let s2 := mkHs (hs_position s1) (hs_velocity s1) pp (hs_best_pos s1) (set_pbest_cost (hs_rest s1) pc) in
          let yet := s_best_cost (hs_rest s2) in
          match h_compute_gbest (e_top e i) (gbest_args c) (h_top o) s2 h with
          | (h, Err x) => (h, HRaise (h_with_swarm o s2) x)
          | (h, Ok (t, Err x)) => (h, HRaise (h_with_top (h_with_swarm o s2) t) x)
          | (h, Ok (t, Ok (bp, bc, np))) =>
              let s3 := mkHs (hs_position s2) (hs_velocity s2) (hs_pbest_pos s2) bp (set_best (hs_rest s2) BPEmpty bc np) in
              let o3 := h_populate (h_with_top (h_with_swarm o s3) t)
                          bc (np_mean (e_tree e) pc) bc (hs_position s3) (hs_velocity s3) in
              let q' := deque_append (c_ftol_iter c) q (small_change (c_ftol c) yet bc) in
              if Nat.leb (c_ftol_iter c) i && forallb (fun x => x) q' then (h, HBreak o3) else (h, HNext o3 q')
          end
      end
  end.
(** global_best.py:239-248, local_best.py:267-276, general_optimizer.py:279-288, binary.py:231-234 *)
Definition h_update (c : config) (e : env) (iters i : nat) (h : heap) (o : hstate) (q : list bool) : heap * hstep :=
  let s := hs o in
  match
    match c_kind c with
    | Binary => Ok (s_options (hs_rest s))
    | _ => oh_call (e_oh e i) (c_oh c) (c_options c)
             (mkOk (Some (Z.of_nat i)) (Some (Z.of_nat iters)) None None None None)
    end
  with
  | Err x => (h, HRaise o x)
  | Ok opts =>
      let s1 := h_set_rest s (set_options (hs_rest s) opts) in
      let o1 := h_with_swarm o s1 in
      let b := match c_kind c with Binary => None | _ => c_bounds c end in
      match h_compute_velocity (e_vel e i) (c_vh c) (h_vmem o1) s1 (c_clamp c) b h with
      | (h, Err x) => (h, HRaise o1 x)
      | (h, Ok (v, vmem)) =>
          let s2 := mkHs (hs_position s1) v (hs_pbest_pos s1) (hs_best_pos s1) (hs_rest s1) in
          let o2 := h_with_vmem (h_with_swarm o1 s2) vmem in
          match c_kind c with
          | Binary =>
              match (ho vm <- read (hs_velocity s2); ho p <- hlift (binary_position (e_exp e) (e_bits e i) vm); alloc p) h with
              | (h, Err x) => (h, HRaise o2 x)
              | (h, Ok p) => (h, HNext (h_with_swarm o2 (mkHs p (hs_velocity s2) (hs_pbest_pos s2) (hs_best_pos s2) (hs_rest s2))) q)
              end
          | _ =>
              match h_compute_position (e_bh e i) (c_bh c) (h_bmem o2) s2 (c_bounds c) h with
              | (h, Err x) => (h, HRaise o2 x)
              | (h, Ok (p, bmem)) =>
                  (h, HNext (h_with_bmem (h_with_swarm o2 (mkHs p (hs_velocity s2) (hs_pbest_pos s2) (hs_best_pos s2) (hs_rest s2))) bmem) q)
              end
          end
      end
  end.
(** global_best.py:207-248 etc., one pass *)
Definition h_iteration (c : config) (e : env) (pool : option nat) (iters i : nat) (h : heap) (o : hstate) (q : list bool) : heap * hstep :=
  match h_evaluate c e pool i h o q with
  | (h, HNext o' q') => h_update c e iters i h o' q'
  | r => r
  end.
(** As [loop_end] in Optimizers.v. *)
Inductive hloop_end : Type := HDone (o : hstate) | HLRaise (o : hstate) (e : exn).
(** global_best.py:206, local_best.py:230, general_optimizer.py:244, binary.py:193 *)
Fixpoint h_loop (c : config) (e : env) (pool : option nat) (iters m i : nat) (h : heap) (o : hstate) (q : list bool) : heap * hloop_end :=
  match m with
  | O => (h, HDone o)
  | S m' =>
      match h_iteration c e pool iters i h o q with
      | (h, HNext o' q') => h_loop c e pool iters m' (S i) h o' q'
      | (h, HBreak o') => (h, HDone o')
      | (h, HRaise o' x) => (h, HLRaise o' x)
      end
  end.
(** global_best.py:250-253, local_best.py:278-281, general_optimizer.py:290-293, binary.py:236-239 *)
Definition h_final (o : hstate) : H (f64 * frow) :=
  ho s <- h_swarm (hs o);
  if negb (s_best_np s) then hfail AttributeError
  else
    ho j <- hlift (np_argmin (N := F64num) (s_pbest_cost s));
    ho p <- hlift (of_option IndexError (nth_error (s_pbest_pos s) j));
    hret (s_best_cost s, p).
(** global_best.py:198-199, local_best.py:222-223, general_optimizer.py:236-237, binary.py:186 *)
Definition h_start (c : config) (o : hstate) : hstate :=
  let p := hs_position (hs o) in
  match c_kind c with
  | Binary => h_with_vmem o (Some p)
  | _ => h_with_vmem (h_with_bmem o (Some p)) (Some p)
  end.
(** global_best.py:159-264, local_best.py:183-292, general_optimizer.py:197-304, binary.py:146-250 *)
Definition h_optimize (c : config) (e : env) (pool : option nat) (iters : nat) (h : heap) (o : hstate) : heap * (hstate * res (f64 * frow)) :=
  let o1 := h_start c o in
  match pool with
  | Some O => (h, (o1, Err ValueError))
  | _ =>
      let s := hs o1 in
      match h_loop c e pool iters iters 0 h (h_with_swarm o1 (h_set_rest s (set_pbest_cost (hs_rest s) (repeat finf (c_n c))))) [] with
      | (h, HLRaise o' x) => (h, (o', Err x))
      | (h, HDone o') => let (h, r) := h_final o' h in (h, (o', r))
      end
  end.

(** *** Construction and reset: the user's [init_pos] array, if any, becomes the position array itself
    (generators.py:61-68, 127-133) and thereby also [pbest_pos] (swarms.py:119-121). *)
Definition with_init (c : config) (ip : option fmatrix) : config :=
  mkConfig (c_kind c) (c_n c) (c_d c) (c_options c) (c_bounds c) (c_clamp c) (c_center c)
    (c_ftol c) (c_ftol_iter c) ip (c_bh c) (c_vh c) (c_oh c).
(** generators.py:61-68, 127-133: the array passed as [init_pos] is used itself *)
Definition h_init (init : option addr) : H (option fmatrix) :=
  match init with None => hret None | Some a => ho m <- read a; hret (Some m) end.
(** generators.py:231-245, swarms.py:119-121: [pbest_pos] is the position array *)
Definition h_new_swarm (init : option addr) (s : fswarm) : H hswarm :=
  ho a <- (match init with Some a => hret a | None => alloc (s_position s) end);
  ho v <- alloc (s_velocity s);
  hret (mkHs a v a HEmpty s).
(** The [__init__] methods, as [construct] in Optimizers.v. (global_best.py:75-157, local_best.py:84-181, general_optimizer.py:76-195, binary.py:71-144.) *)
Definition h_construct (c : config) (top : topology) (dr : create_draws) (init : option addr) : H hstate :=
  ho ip <- h_init init;
  ho o <- hlift (construct (with_init c ip) top dr);
  ho s <- h_new_swarm init (o_swarm o);
  hret (mkHst s (o_top o) None None [] [] [] [] []).
(** base_single.py:196-212, base_discrete.py:198-214 [reset]; the handlers' memories stay *)
Definition h_reset (c : config) (dr : create_draws) (init : option addr) (x : hstate) : H hstate :=
  ho ip <- h_init init;
  ho w <- hlift (make_swarm (with_init c ip) dr);
  ho s <- h_new_swarm init w;
  hret (mkHst s (h_top x) (h_bmem x) (h_vmem x) [] [] [] [] []).
