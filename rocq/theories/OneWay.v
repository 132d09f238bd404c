(** Velocity clamps that allow one direction only (C67). *)
From Coq Require Import String ZArith List Arith Bool Reals Lra Lia.
From Verif Require Import Prelude ListFacts F64 F64Facts F64More Num Np Handlers Swarms Operators Generators Topology Optimizers Search
  Spec SpecHandlers SpecDyn SpecSearch SpecObj ShapeFacts HandlerFacts VhFacts VelFacts RunFacts RunMain RunInv VelRun GenFacts StartRun
  Trajectory Handled Ties ObjFloat SearchFacts SearchRun.
Import ListNotations.
Local Open Scope string_scope.
Local Open Scope list_scope.
Local Open Scope nat_scope.

Lemma add_up : forall x y v, not_below x y -> not_below fzero v -> not_below x (fadd y v).
Proof.
  intros x y v H V. destruct (cases x) as [N|[->|[->|[Fx _]]]].
  - unfold not_below. fkeys. rewrite N in *. intuition congruence.
  - destruct (cases y) as [N|[->|[->|[F K]]]].
    + apply nan_below, nan_add. auto.
    + destruct (below_cases fzero v eq_refl V) as [N|[->|[F _]]].
      * apply nan_below, nan_add. auto.
      * apply inf_below.
      * destruct v; try discriminate; apply inf_below.
    + exfalso. revert H. unfold not_below. discriminate.
    + exfalso. pose proof (fkey_bound _ F). pose proof bmax_pos. unfold not_below in H. fkeys. rewrite fkey_finf in H. rewrite (finite_notnan _ F) in H.
      destruct H as [H|[H|H]]; try discriminate. lra.
  - apply nlt_fninf.
  - apply (below_add x fzero x); auto. change (FR fzero) with 0%R. lra.
Qed.
Lemma add_down : forall x y v, not_above x y -> not_above fzero v -> not_above x (fadd y v).
Proof.
  intros x y v H V. destruct (cases x) as [N|[->|[->|[Fx _]]]].
  - unfold not_above. fkeys. rewrite N in *. intuition congruence.
  - apply nlt_finf.
  - destruct (cases y) as [N|[->|[->|[F K]]]].
    + apply nan_above, nan_add. auto.
    + exfalso. revert H. unfold not_above. discriminate.
    + destruct (above_cases fzero v eq_refl V) as [N|[->|[F _]]].
      * apply nan_above, nan_add. auto.
      * apply ninf_above.
      * destruct v; try discriminate; apply ninf_above.
    + exfalso. pose proof (fkey_bound _ F). pose proof bmax_pos. unfold not_above in H. fkeys. rewrite fkey_fninf in H. rewrite (finite_notnan _ F) in H.
      destruct H as [H|[H|H]]; try discriminate. lra.
  - destruct (above_cases _ _ Fx H) as [N|[->|[Fy Ky]]]; [apply nan_above, nan_add; auto| |];
      (destruct (above_cases fzero v eq_refl V) as [N|[->|[Fv Kv]]]; [apply nan_above, nan_add; auto| |]).
    + apply ninf_above.
    + destruct v; try discriminate; apply ninf_above.
    + destruct y; try discriminate; apply ninf_above.
    + change (FR fzero) with 0%R in Kv. apply (round_above_ _ _ _ Fx (fadd_round _ _ Fy Fv)). lra.
Qed.

Lemma one_way : forall c e pool iters o o' r cl, c_kind c <> Binary -> c_bounds c = None -> c_clamp c = Some cl -> c_vh c = "unmodified" ->
  (forall j a b, clamp_column cl j a b -> fle a b = true) -> pool <> Some 0 -> optimize c e pool iters o = (o', r) ->
  exists hp, o_pos_history o' = o_pos_history o ++ hp /\ (forall X, nth_error hp 0 = Some X -> X = s_position (o_swarm o)) /\
  forall t t' X X' i j x', t <= t' -> nth_error hp t = Some X -> nth_error hp t' = Some X' -> entry X' i j = Some x' ->
    exists x, entry X i j = Some x /\ forall a b, clamp_column cl j a b ->
      (fle fzero a = true -> flt x' x = false) /\ (fle b fzero = true -> flt x x' = false).
Proof.
  intros c e pool iters o o' r cl KB HB CL VH LE NP E.
  destruct (optimize_trace _ _ _ _ _ _ _ NP E) as (k & tr & C & H & _). destruct H as (H1 & H2 & H3 & H4 & H5 & H6 & H7).
  exists (map fst tr). split; [exact H3|]. split.
  { intros X EX. rewrite nth_error_map in EX. destruct (nth_error tr 0) as [q|] eqn:Q; [|discriminate]. injection EX as <-.
    rewrite (H6 _ eq_refl). reflexivity. }
  assert (STEP : forall t X X', nth_error (map fst tr) t = Some X -> nth_error (map fst tr) (S t) = Some X' ->
    forall i j x', entry X' i j = Some x' ->
      exists x v, entry X i j = Some x /\ x' = fadd x v /\ forall a b, clamp_column cl j a b -> flt v a = false /\ flt b v = false).
  { intros t X X' E1 E2 i j x' Ex. rewrite nth_error_map in E1, E2.
    destruct (nth_error tr t) as [q|] eqn:Q; [|discriminate]. injection E1 as <-. destruct (nth_error tr (S t)) as [q'|] eqn:Q'; [|discriminate]. injection E2 as <-.
    destruct (H7 t _ _ Q Q') as (o1 & o2 & opts & vm & bm & h & Ch & B & R & PH & PC & Q1 & Q2 & _ & U).
    destruct (updated_velocity _ _ _ _ _ _ _ _ _ _ _ U) as (temp & kk & _ & _ & V). rewrite CL in V.
    destruct (vh_clamped (c_vh c) cl (o_vmem o1) kk temp (snd q') vm) as (w & A); auto.
    destruct U as (U & _).
    assert (U3 : compute_position (e_bh e t) (c_bh c) (o_bmem o1) (set_velocity (set_options (o_swarm o1) opts) (snd q')) (c_bounds c) = Ok (fst q', bm)).
    { destruct (c_kind c); try congruence; apply U. }
    clear U. rewrite HB in U3. unfold compute_position in U3. cbn [s_position s_velocity set_velocity set_options] in U3.
    destruct (same_shape (s_position (o_swarm o1)) (snd q')) eqn:SS; cbn [negb] in U3; [|discriminate].
    injection U3 as U3 _. rewrite <- U3 in Ex. rewrite <- Q1.
    destruct (entry_row _ _ _ _ Ex) as (rr & Er & Ej). apply nth_map2_inv in Er. destruct Er as (xr & vr & X1 & X2 & ->).
    apply nth_map2_inv in Ej. destruct Ej as (x & v & Y1 & Y2 & ->).
    exists x, v. split; [exact (entry_of _ _ _ _ _ X1 Y1)|]. split; [reflexivity|].
    destruct (entry_clamp cl w (snd q') i j A v (entry_of _ _ _ _ _ X2 Y2)) as (y & lo & hi & Y & C' & ->).
    intros a b Cc. assert (QQ : lo = a /\ hi = b). { destruct Cc as [C1 C2], C' as [D1 D2]. split; congruence. }
    destruct QQ as [-> ->]. apply clamp_in. exact (LE j a b Cc). }
  intros t t' X X' i j x' L EX EX' Ex. revert X' x' EX' Ex. induction L as [|t' L IH]; intros X' x' EX' Ex.
  - pose proof (eq_trans (eq_sym EX) EX') as Q. injection Q as <-. exists x'. split; [exact Ex|]. intros a b _. split; intros _; apply flt_irrefl.
  - destruct (nth_error (map fst tr) t') as [Y|] eqn:EY.
    2:{ apply nth_error_None in EY. apply nth_error_lt in EX'. lia. }
    destruct (STEP _ _ _ EY EX' _ _ _ Ex) as (y & v & Ey & -> & VV).
    destruct (IH _ _ eq_refl Ey) as (x & E0 & UD). exists x. split; [exact E0|].
    intros a b Cc. destruct (VV a b Cc) as [VA VB]. destruct (UD a b Cc) as [U D]. split; intros S.
    + apply add_up; [exact (U S)|]. unfold not_below. clear - S VA. forder.
    + apply add_down; [exact (D S)|]. unfold not_above. clear - S VB. forder.
Qed.

Lemma one_way_returned : forall c e pool iters o o' cost pos cl, Fresh c o -> c_kind c <> Binary -> c_bounds c = None -> c_clamp c = Some cl ->
  c_vh c = "unmodified" -> (forall j a b, clamp_column cl j a b -> fle a b = true) -> optimize c e pool iters o = (o', Ok (cost, pos)) ->
  exists i x0, nth_error (s_position (o_swarm o)) i = Some x0 /\
  forall j p, nth_error pos j = Some p ->
    exists x, nth_error x0 j = Some x /\ forall a b, clamp_column cl j a b ->
      (fle fzero a = true -> flt p x = false) /\ (fle b fzero = true -> flt x p = false).
Proof.
  intros c e pool iters o o' cost pos cl Fr KB HB CL VH LE E.
  assert (NP : pool <> Some 0). { intros ->. unfold optimize in E. discriminate. }
  destruct (one_way _ _ _ _ _ _ _ _ KB HB CL VH LE NP E) as (hp & EH & F0 & ST).
  destruct (Fresh_inv _ _ Fr) as (dm & p0 & v0 & _ & _ & _ & _ & P0 & _). rewrite P0 in EH. cbn [app] in EH.
  destruct (returned_first _ _ _ _ _ _ _ _ Fr E) as (C & _ & _ & i & x0 & v & X0 & B & _). exists i, x0. split; [exact X0|].
  intros j p Ep. destruct B as [(_ & -> & _)|(_ & t & (X & cs & EX & _ & Ex & _) & _)].
  - exists p. split; [exact Ep|]. intros a b _. split; intros _; apply flt_irrefl.
  - rewrite EH in EX. destruct (nth_error hp 0) as [Y|] eqn:EY.
    2:{ apply nth_error_None in EY. apply nth_error_lt in EX. lia. }
    rewrite (F0 _ eq_refl) in EY.
    destruct (ST 0 t _ _ i j p (Nat.le_0_l t) EY EX (entry_of _ _ _ _ _ Ex Ep)) as (x & H1 & H2).
    exists x. split; [|exact H2]. destruct (entry_row _ _ _ _ H1) as (q & Q1 & Q2). pose proof (eq_trans (eq_sym X0) Q1) as Q. injection Q as ->. exact Q2.
Qed.

Lemma search_positive : forall kind n d iters dr e i g s, kind <> Binary -> unit_matrix n d (cd_pos (dr i)) ->
  generate_score kind n d None (Some (repeat fzero d, repeat fone d)) iters dr e i g = Ok s ->
  positive_run kind n d iters (dr i) (e i) g s.
Proof.
  intros kind n d iters dr e i g s KB U H. destruct (score_full _ _ _ _ _ _ _ _ _ _ _ H) as (_ & _ & c & o & o' & pos & PC & CO & _ & _ & E & _).
  exists c, o, o', pos. split; [exact PC|]. split; [exact CO|]. split; [exact E|].
  destruct PC as (K1 & K2 & K3 & K4 & K5 & K6 & K7 & K8 & K9 & K10 & K11 & K12 & K13).
  assert (KB' : c_kind c <> Binary) by congruence.
  assert (COL : forall j, j < d -> clamp_column (N := F64num) (repeat fzero d, repeat fone d) j fzero fone).
  { intros j J. split; cbn [fst snd]; apply nth_error_repeat; exact J. }
  assert (CV : forall j a b, clamp_column (N := F64num) (repeat fzero d, repeat fone d) j a b -> a = fzero /\ b = fone).
  { intros j a b [A B]. cbn [fst snd] in A, B. apply nth_error_In, repeat_spec in A. apply nth_error_In, repeat_spec in B. auto. }
  assert (LE : forall j a b, clamp_column (N := F64num) (repeat fzero d, repeat fone d) j a b -> fle a b = true).
  { intros j a b Q. destruct (CV _ _ _ Q) as [-> ->]. reflexivity. }
  destruct (construct_inv _ _ _ _ CO) as (sw & MS & EO & _). pose proof (Fresh_construct _ _ _ _ CO) as Fr.
  destruct (make_swarm_inv _ _ _ KB' MS) as (_ & _ & GS). rewrite K2, K3, K5, K7, K10 in GS.
  destruct (generate_unbounded n d (repeat fone d) (cd_pos (dr i)) (repeat_length _ _) U) as (m & GM & IM & W).
  pose proof (eq_trans (eq_sym GS) GM) as Q. injection Q as Q.
  assert (P0 : s_position (o_swarm o) = m). { rewrite EO. exact Q. }
  assert (Z0 : forall a j x, entry m a j = Some x -> j < d /\ fle fzero x = true).
  { intros a j x Ex. destruct (entry_lt n d _ _ _ _ IM Ex) as [_ J]. split; [exact J|].
    destruct (W a j x fone Ex) as (w & -> & W0 & W1). { apply nth_error_repeat; exact J. }
    destruct (unit_draw w W0 W1) as [Fw Rw].
    refine (is_round_le_l _ _ fzero (fmul_round fone w eq_refl Fw) eq_refl _). rewrite fone_R. change (FR fzero) with 0%R. lra. }
  assert (NP : @None nat <> Some 0) by discriminate.
  destruct (Fresh_inv _ _ Fr) as (dm & p0 & v0 & _ & _ & _ & _ & PH0 & _).
  split.
  - intros t X a j x EX Ex. destruct (one_way _ _ _ _ _ _ _ _ KB' K5 K6 K12 LE NP E) as (hp & EH & F0 & ST).
    rewrite PH0 in EH. cbn [app] in EH. rewrite EH in EX. destruct (nth_error hp 0) as [Y|] eqn:EY.
    2:{ apply nth_error_None in EY. apply nth_error_lt in EX. lia. }
    pose proof (F0 _ eq_refl) as FY. rewrite P0 in FY. subst Y.
    destruct (ST 0 t _ _ a j x (Nat.le_0_l t) EY EX Ex) as (y & Ey & UD). destruct (Z0 _ _ _ Ey) as [J Y0].
    destruct (UD _ _ (COL j J)) as [UP _]. specialize (UP eq_refl). clear - UP Y0. forder.
  - intros j x Ex. destruct (one_way_returned _ _ _ _ _ _ _ _ _ Fr KB' K5 K6 K12 LE E) as (a & x0 & X0 & ST).
    rewrite P0 in X0. destruct (ST j x Ex) as (y & Ey & UD). destruct (Z0 _ _ _ (entry_of _ _ _ _ _ X0 Ey)) as [J Y0].
    destruct (UD _ _ (COL j J)) as [UP _]. specialize (UP eq_refl). clear - UP Y0. forder.
Qed.

(** All runs of a search without bounds and with the default clamp. *)
Lemma default_search : forall a kind dr e, sa_optimizer a = Some kind -> kind <> Binary -> sa_bounds a = None -> sa_vclamp a = None ->
  (forall i, unit_matrix (sa_n a) (sa_d a) (cd_pos (dr i))) ->
  (forall opts maximum s g, run_grid_search a opts maximum dr e = Ok (s, g) -> exists grid, grid_search opts = Ok grid /\
     forall i h, nth_error grid i = Some h -> exists x, positive_run kind (sa_n a) (sa_d a) (sa_iters a) (dr i) (e i) h x) /\
  (forall rd n opts maximum s g, run_random_search a rd (Some n) opts maximum dr e = Ok (s, g) -> exists grid, snd (random_search rd n opts) = Ok grid /\
     forall i h, nth_error grid i = Some h -> exists x, positive_run kind (sa_n a) (sa_d a) (sa_iters a) (dr i) (e i) h x).
Proof.
  intros a kind dr e K KB HB HC U.
  assert (G : forall maximum r s g, search_with a maximum dr e r = Ok (s, g) -> exists grid, r = Ok grid /\
    forall i h, nth_error grid i = Some h -> exists x, positive_run kind (sa_n a) (sa_d a) (sa_iters a) (dr i) (e i) h x).
  { intros maximum r s g H. unfold search_with in H. rewrite K in H. cbn [of_option bind] in H. destruct r as [grid|]; [|discriminate]. cbn [bind] in H.
    exists grid. split; [reflexivity|]. intros i h HI. destruct (search_scored _ _ _ _ H i h HI) as (x & X).
    exists x. unfold sa_clamp in X. rewrite HB, HC in X. exact (search_positive _ _ _ _ _ _ _ _ _ KB (U i) X). }
  split.
  - intros opts maximum s g H. exact (G _ _ _ _ H).
  - intros rd n opts maximum s g H. unfold run_random_search in H. rewrite K in H. cbn [of_option bind] in H. exact (G _ _ _ _ H).
Qed.
