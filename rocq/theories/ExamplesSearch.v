(** Concrete cases for the search properties. *)
From Coq Require Import String ZArith List Arith Bool Lia.
From Verif Require Import Prelude F64 F64Facts Num Np Handlers Swarms Operators Generators Topology Optimizers
  Search SpecSearch SearchFacts Spec SpecHandlers ExamplesMotion Demo.
Import ListNotations.
Local Open Scope string_scope.
Local Open Scope list_scope.
Local Open Scope nat_scope.

(** Two values of c1, three of w, one c2. *)
Definition g_opts : dict gval :=
  [("c1", Many [dec 1 10; dec 5 10]); ("c2", Single (dec 3 10)); ("w", Many [dec 2 10; dec 4 10; dec 9 10])].
Definition g_grid : list popts := match grid_search g_opts with Ok g => g | Err _ => [] end.
Lemma g_grid_ok : grid_search g_opts = Ok g_grid. Proof. reflexivity. Qed.
Lemma g_count : length g_grid = 6 /\ n_selections g_opts = 6. Proof. split; reflexivity. Qed.
Lemma g_selection : selection g_opts [1; 0; 2] /\
  match nth_error g_grid 5 with Some g => selects g_opts [1; 0; 2] g | None => False end.
Proof.
  split. { repeat constructor. } cbn [nth_error g_grid grid_search g_opts product map concat app items_of snd fst combine].
  split; [reflexivity|]. intros [|[|[|j]]] key x i O I; cbn in O, I; try discriminate; try (destruct j; discriminate);
    injection O as <- <-; injection I as <-; eexists; (split; [reflexivity|]); cbn; auto.
Qed.

(** Score: w of the options. *)
Definition w_score (_ : nat) (o : popts) : res f64 := do v <- of_option KeyError (dget o "w"); Ok (pnum v).
Definition score_is (r : res (f64 * popts)) (w : f64) (n : nat) : bool :=
  match r with Ok (s, g) => feq s w && (match dget g "c1" with Some v => feq (pnum v) (fdec (Z.of_nat n) 10) | None => false end) | Err _ => false end.
Lemma w_min : score_is (search false w_score g_grid) (fdec 2 10) 1 = true. Proof. vm_compute. reflexivity. Qed.
Lemma w_max : score_is (search true w_score g_grid) (fdec 9 10) 1 = true. Proof. vm_compute. reflexivity. Qed.
Lemma w_no_nan : forall o, In o g_grid -> exists s, w_score 0 o = Ok s /\ fisnan s = false.
Proof.
  intros o I. assert (T : forallb (fun o => match w_score 0 o with Ok s => negb (fisnan s) | Err _ => false end) g_grid = true) by (vm_compute; reflexivity).
  rewrite forallb_forall in T. specialize (T o I). destruct (w_score 0 o) as [s|]; [|discriminate]. exists s. split; auto. destruct (fisnan s); auto.
Qed.
(** A whole search over real runs of the optimizer. *)
Lemma g_runs : match search false (generate_score GlobalBest 3 2 (Some d_bounds) None 3 (fun i => d_cd i 3 2) (fun _ => run_e)) g_grid with
  | Ok (s, g) => flt s (F 50) | Err _ => false end = true.
Proof. vm_compute. reflexivity. Qed.
Lemma g_score_ok : is_ok (generate_score GlobalBest 3 2 (Some d_bounds) None 3 (fun i => d_cd i 3 2) (fun _ => run_e) 1 (nth 1 g_grid [])) = true.
Proof. vm_compute. reflexivity. Qed.
Lemma g_score : exists s, generate_score GlobalBest 3 2 (Some d_bounds) None 3 (fun i => d_cd i 3 2) (fun _ => run_e) 1 (nth 1 g_grid []) = Ok s.
Proof. generalize g_score_ok. destruct (generate_score _ _ _ _ _ _ _ _ _ _) as [s|x]; [eauto|discriminate]. Qed.

(** Random search. *)
Definition r_opts : dict rval :=
  [("c1", RPair (PInt 1) (PInt 5)); ("c2", RPair (PInt 6) (PInt 10)); ("w", RPair (dec 2 10) (dec 9 10)); ("k", RPair (PInt 11) (PInt 15)); ("p", RNum (PInt 1))].
Definition r_draws : rs_draws := mkRs (fun key i => d_draw (String.length key) i 1) (fun i => Z.of_nat (i * 7)).
Lemma r_ok : is_ok (snd (random_search r_draws 4 r_opts)) = true. Proof. vm_compute. reflexivity. Qed.
Lemma r_nodup : NoDup (dkeys r_opts). Proof. repeat (constructor; [cbn; intuition discriminate|]). constructor. Qed.
Lemma d_draw_unit : forall s i j, fle fzero (d_draw s i j) = true /\ flt (d_draw s i j) fone = true.
Proof.
  intros s i j. unfold d_draw. pose proof (Nat.mod_upper_bound (i * 7 + j * 3 + s) 16 ltac:(lia)) as B.
  generalize dependent ((i * 7 + j * 3 + s) mod 16). intros m B.
  do 16 (destruct m as [|m]; [split; vm_compute; reflexivity|]). lia.
Qed.
Lemma r_finite : forall key lo hi, In key ["c1"; "c2"; "w"] -> dget r_opts key = Some (RPair lo hi) ->
  ffinite (pnum lo) = true /\ ffinite (pnum hi) = true /\ fle (pnum lo) (pnum hi) = true.
Proof.
  assert (T : forallb (fun key => match dget r_opts key with Some (RPair lo hi) => ffinite (pnum lo) && ffinite (pnum hi) && fle (pnum lo) (pnum hi) | _ => true end) ["c1"; "c2"; "w"] = true)
    by (vm_compute; reflexivity).
  intros key lo hi I E. rewrite forallb_forall in T. specialize (T key I). rewrite E in T.
  apply andb_prop in T. destruct T as [T T3]. apply andb_prop in T. destruct T as [T1 T2]. auto.
Qed.
Definition same_exn (x : exn) {A} (r : res A) : bool :=
  match r, x with Err KeyError, KeyError | Err ValueError, ValueError | Err OverflowError, OverflowError | Err TypeError, TypeError => true | _, _ => false end.
(** Without c2; without p; with an empty range for k; with an infinite range. *)
Lemma r_errors : same_exn KeyError (snd (random_search r_draws 4 [("c1", RPair (PInt 1) (PInt 5)); ("w", RPair (dec 2 10) (dec 9 10)); ("k", RPair (PInt 11) (PInt 15)); ("p", RNum (PInt 1))])) = true /\
  same_exn KeyError (snd (random_search r_draws 4 [("c1", RPair (PInt 1) (PInt 5))])) = true /\
  same_exn ValueError (snd (random_search r_draws 4 [("k", RPair (PInt 5) (PInt 5)); ("p", RNum (PInt 1))])) = true /\
  same_exn OverflowError (snd (random_search r_draws 4 [("c1", RPair (PInt 1) (PFloat (finf : F64num))); ("p", RNum (PInt 1))])) = true.
Proof. repeat split; vm_compute; reflexivity. Qed.

(** The default clamp of the search classes, no bounds: a run that moves, and a score. *)
Definition up_clamp : clamp_t F64num := (repeat fzero 2, repeat fone 2).
Definition up_c (k : opt_kind) : config := d_config k 3 2 None (Some up_clamp) "periodic" "unmodified".
Definition moved_up (o' : ostate) : bool :=
  match o_pos_history o' with
  | X :: h => existsb (fun Y => existsb (fun ij => match entry X (fst ij) (snd ij), entry Y (fst ij) (snd ij) with
                | Some x, Some y => flt x y | _, _ => false end) (list_prod (seq 0 3) (seq 0 2))) h
  | [] => false
  end.
Lemma up_run_ok : is_ok (d_run (up_c GlobalBest) star (d_cd 0 3 2) run_e None 4) = true. Proof. vm_compute. reflexivity. Qed.
Lemma up_run_moved : d_test false (d_run (up_c GlobalBest) star (d_cd 0 3 2) run_e None 4) (fun o' _ _ => moved_up o') = true. Proof. vm_compute. reflexivity. Qed.
Lemma up_columns : forall j a b, clamp_column up_clamp j a b -> a = fzero /\ b = fone.
Proof. intros j a b [A B]. unfold up_clamp in A, B. cbn [fst snd] in A, B. apply nth_error_In, repeat_spec in A. apply nth_error_In, repeat_spec in B. auto. Qed.
Lemma up_demo : exists c o e o' v, Fresh c o /\ c_kind c <> Binary /\ c_bounds c = None /\ c_clamp c = Some up_clamp /\ c_vh c = "unmodified" /\
  (forall j a b, clamp_column up_clamp j a b -> fle a b = true /\ fle fzero a = true) /\ optimize c e None 4 o = (o', Ok v) /\ moved_up o' = true.
Proof.
  destruct (d_run_test _ _ _ _ _ _ _ _ _ _ up_run_ok up_run_moved) as (o & o' & cost & pos & _ & Fr & _ & E & H).
  exists (up_c GlobalBest), o, run_e, o', (cost, pos). split; [exact Fr|]. split; [discriminate|]. split; [reflexivity|]. split; [reflexivity|]. split; [reflexivity|].
  split. { intros j a b Q. destruct (up_columns _ _ _ Q) as [-> ->]. split; reflexivity. } split; assumption.
Qed.
Lemma up_score_ok : is_ok (generate_score GlobalBest 3 2 None (Some up_clamp) 3 (fun i => d_cd i 3 2) (fun _ => run_e) 1 (nth 1 g_grid [])) = true.
Proof. vm_compute. reflexivity. Qed.
Lemma up_unit : unit_matrix 3 2 (cd_pos (d_cd 1 3 2)).
Proof. apply unit_matrix_ok; vm_compute; reflexivity. Qed.
Lemma up_score : exists s, unit_matrix 3 2 (cd_pos (d_cd 1 3 2)) /\
  generate_score GlobalBest 3 2 None (Some (repeat fzero 2, repeat fone 2)) 3 (fun i => d_cd i 3 2) (fun _ => run_e) 1 (nth 1 g_grid []) = Ok s.
Proof.
  generalize up_score_ok. fold up_clamp. destruct (generate_score _ _ _ _ _ _ _ _ _ _) as [s|x]; [|discriminate]. intros _. exists s. split; [exact up_unit|reflexivity].
Qed.

(** Whole searches: with bounds, and without bounds and with the default clamp. *)
Definition box_args : search_args := mkSa (Some GlobalBest) 3 2 3 (Some d_bounds) (Some None).
Definition up_args : search_args := mkSa (Some GlobalBest) 3 2 3 None None.
Lemma box_grid_ok : is_ok (run_grid_search box_args g_opts false (fun i => d_cd i 3 2) (fun _ => run_e)) = true. Proof. vm_compute. reflexivity. Qed.
Lemma up_grid_ok : is_ok (run_grid_search up_args g_opts true (fun i => d_cd i 3 2) (fun _ => run_e)) = true. Proof. vm_compute. reflexivity. Qed.
Lemma up_random_ok : is_ok (run_random_search up_args r_draws (Some 4) r_opts false (fun i => d_cd i 3 2) (fun _ => run_e)) = true. Proof. vm_compute. reflexivity. Qed.
Lemma ok_pair : forall A B (r : res (A * B)), is_ok r = true -> exists a b, r = Ok (a, b).
Proof. intros A B [[a b]|]; [eauto|discriminate]. Qed.
Lemma d_cd_unit : forall i, unit_matrix 3 2 (cd_pos (d_cd i 3 2)).
Proof.
  intros i. apply unit_matrix_ok; unfold d_cd; cbn [cd_pos d_mat map seq matrix_b forallb length]; [reflexivity|].
  rewrite !ExamplesMotion.d_draw_unit. reflexivity.
Qed.
(** BinaryPSO with bounds, GeneralOptimizerPSO. *)
Definition exn_is (x y : exn) : bool := match x, y with AttributeError, AttributeError | ValueError, ValueError | TypeError, TypeError => true | _, _ => false end.
Definition raises {A} (x : exn) (r : res A) : bool := match r with Err y => exn_is x y | Ok _ => false end.
Notation demo_score k b := (generate_score k 3 2 b None 3 (fun i => d_cd i 3 2) (fun _ => run_e) 0 [("k", PInt (N := F64num) 2); ("p", PInt 1)]).
Lemma kinds_demo : raises ValueError (demo_score Binary (Some (mkBounds (N := F64num) [F 0; F 1] [F 2; F 3] true))) = true /\
  raises AttributeError (demo_score Binary (Some (mkBounds (N := F64num) [F 0; F 0] [F 1; F 1] true))) = true /\
  raises TypeError (demo_score General None) = true.
Proof. repeat split; vm_compute; reflexivity. Qed.
