(** Which types of [init_pos] the optimizers work with (C85). *)
From Coq Require Import String ZArith List Arith Bool Lia.
From Verif Require Import Prelude F64 F64Facts F64More Num Np ListFacts Handlers Swarms Operators Generators Topology Optimizers DType Spec SpecHandlers SpecDType RunFacts HandlerFacts VelRun.
Import ListNotations.
Local Open Scope string_scope.
Local Open Scope list_scope.
Local Open Scope nat_scope.

Definition forget (s : dstep) : step := match s with DNext o q _ => Next o q | DBreak o _ => Break o | DRaise o _ x => Raise o x end.

(** *** Runs in which the types do no harm *)
Section Loop.
Variables (c : config) (k : dconf) (e : env) (pool : option nat) (iters : nat) (J : ostate -> dtypes -> Prop).
Hypothesis STEP : forall i o q d, J o d -> forget (iteration_dt c k e pool iters i o q d) = iteration c e pool iters i o q /\
  forall o' q' d', iteration_dt c k e pool iters i o q d = DNext o' q' d' -> J o' d'.
Lemma loop_same : forall m i o q d, J o d -> fst (loop_dt c k e pool iters m i o q d) = opt_loop c e pool iters m i o q.
Proof.
  induction m as [|m IH]; intros i o q d H; [reflexivity|]. cbn [loop_dt opt_loop]. destruct (STEP i o q d H) as [S1 S2]. rewrite <- S1. destruct (iteration_dt c k e pool iters i o q d) as [o1 q1 d1|o1 d1|o1 d1 x]; cbn [forget]; try reflexivity.
  apply IH. exact (S2 _ _ _ eq_refl).
Qed.
Lemma optimize_same : forall o d, J (started c o) (mkDt (t_pos d) (t_pbest d) (t_pos d)) ->
  fst (fst (optimize_dt c k e pool iters o d)) = fst (optimize c e pool iters o) /\ snd (optimize_dt c k e pool iters o d) = snd (optimize c e pool iters o).
Proof.
  intros o d H. unfold optimize_dt, optimize. pose proof (loop_same iters 0 (started c o) [] _ H) as L. unfold started in L.
  destruct pool as [[|n]|]; [split; reflexivity| |]; (rewrite <- L; destruct (loop_dt _ _ _ _ _ _ _ _ _ _) as [[o1|o1 x] d1]; split; reflexivity).
Qed.
End Loop.

(** *** Floats, and integers in BinaryPSO *)
Lemma bools_r : forall a b, b <> TBool -> bools a b = false.
Proof. intros [] [] H; try reflexivity; congruence. Qed.
Lemma bools_l : forall a b, a <> TBool -> bools a b = false.
Proof. intros [] [] H; try reflexivity; congruence. Qed.
Lemma velocity_plain : forall c d dr vmem s b, t_pos d <> TBool -> compute_velocity_dt c d dr vmem s b = compute_velocity dr (c_vh c) vmem s (c_clamp c) b.
Proof.
  intros c d dr vmem s b H. unfold compute_velocity_dt. rewrite bools_r by exact H. rewrite (bools_l (t_pos d)) by exact H. rewrite andb_false_r. destruct (compute_velocity _ _ _ _ _ _); reflexivity.
Qed.
Definition plain (c : config) (d : dtypes) : Prop := t_pos d <> TBool /\ (c_kind c = Binary \/ t_pos d = TFlt).
Lemma plain_step : forall c k e pool iters i o q d, plain c d -> forget (iteration_dt c k e pool iters i o q d) = iteration c e pool iters i o q /\
  forall o' q' d', iteration_dt c k e pool iters i o q d = DNext o' q' d' -> plain c d'.
Proof.
  intros c k e pool iters i o q d [NB H]. unfold iteration_dt, iteration. destruct (evaluate_swarm c e pool i o q) as [o1 q1|o1|o1 x]; cbn [forget]; [|split; [reflexivity|discriminate]|split; [reflexivity|discriminate]].
  set (d1 := mkDt (t_pos d) (join (t_pbest d) (t_pos d)) (t_mem d)). assert (NB1 : t_pos d1 <> TBool) by exact NB. unfold update_dt, update_swarm.
  destruct (match c_kind c with Binary => _ | _ => _ end) as [opts|x]; [|split; [reflexivity|discriminate]]. rewrite velocity_plain by exact NB1.
  destruct (compute_velocity _ _ _ _ _ _) as [[v vm]|x]; [|split; [reflexivity|discriminate]].
  assert (K : c_kind c = Binary \/ (c_kind c <> Binary /\ t_pos d1 = TFlt)) by (destruct H as [H|H]; [left; exact H|]; destruct (c_kind c) eqn:KK; [right; split; [discriminate|exact H]|right; split; [discriminate|exact H]|right; split; [discriminate|exact H]|left; reflexivity]).
  destruct K as [K|[K T]].
  - rewrite K. destruct (binary_position _ _ _) as [p|x]; [|split; [reflexivity|discriminate]]. split; [reflexivity|]. intros o' q' d' E. injection E as <- <- <-. split; [discriminate|left; exact K].
  - assert (G : forall A (a b : A), match c_kind c with Binary => a | _ => b end = b) by (intros; destruct (c_kind c); congruence). rewrite !G. unfold compute_position_dt. rewrite T.
    destruct (compute_position _ _ _ _ _) as [[p bm]|x]; cbn [bind]; [|split; [reflexivity|discriminate]]. split; [reflexivity|]. intros o' q' d' E. injection E as <- <- <-. split; [discriminate|right; reflexivity].
Qed.
Lemma types_plain : forall c k e pool iters o d, t_pos d <> TBool -> (c_kind c = Binary \/ t_pos d = TFlt) ->
  fst (fst (optimize_dt c k e pool iters o d)) = fst (optimize c e pool iters o) /\ snd (optimize_dt c k e pool iters o d) = snd (optimize c e pool iters o).
Proof. intros c k e pool iters o d H1 H2. apply (optimize_same c k e pool iters (fun _ => plain c)); [|split; assumption]. intros i o1 q d1 H. apply plain_step. exact H. Qed.

(** *** Integers with "adjust" *)
Definition unbounded (c : config) : config :=
  {| c_kind := c_kind c; c_n := c_n c; c_d := c_d c; c_options := c_options c; c_bounds := None; c_clamp := c_clamp c; c_center := c_center c; c_ftol := c_ftol c; c_ftol_iter := c_ftol_iter c; c_init := c_init c;
     c_bh := c_bh c; c_vh := c_vh c; c_oh := c_oh c |}.
Lemma adjust_bounds : forall dr vmem s cl b b', compute_velocity (N := F64num) dr "adjust" vmem s cl b = compute_velocity dr "adjust" vmem s cl b'.
Proof. reflexivity. Qed.
Definition resting (c : config) (n d : nat) (x0 : fmatrix) (o : ostate) (t : dtypes) : Prop :=
  (t_pos t = TFlt \/ (t_pos t = TInt /\ t_mem t = TInt)) /\ eqpts n d (s_position (o_swarm o)) x0 /\ exists m, o_vmem o = Some m /\ eqpts n d m x0.
Lemma resting_step : forall c k e pool iters n d x0, c_kind c <> Binary -> c_vh c = "adjust" -> (c_clamp c = None \/ dc_clamp k <> TFlt) ->
  (forall cl, c_clamp c = Some cl -> forall j a b, clamp_column cl j a b -> fle a fzero = true /\ fle fzero b = true) ->
  (forall b, c_bounds c = Some b -> box_dim d b /\ none_outside b x0) -> is_matrix n d x0 -> (forall i j y, entry x0 i j = Some y -> ffinite y = true) ->
  forall i o q t, resting c n d x0 o t -> forget (iteration_dt c k e pool iters i o q t) = iteration c e pool iters i o q /\
  forall o' q' t', iteration_dt c k e pool iters i o q t = DNext o' q' t' -> resting c n d x0 o' t'.
Proof.
  intros c k e pool iters n d x0 K VH CLK CZ BD M0 FIN i o q t (HT & E0 & m & VM & EM).
  assert (G : forall A (a b : A), match c_kind c with Binary => a | _ => b end = b) by (intros; destruct (c_kind c); congruence).
  unfold iteration_dt, iteration. pose proof (evaluate_cases c e pool i o q) as EV. destruct (evaluate_swarm c e pool i o q) as [o1 q1|o1|o1 x]; cbn [forget]; [|split; [reflexivity|discriminate]|split; [reflexivity|discriminate]].
  destruct EV as (cost & pp & pc & tt & bp & bc & np & EV & _). assert (P1 : s_position (o_swarm o1) = s_position (o_swarm o) /\ o_vmem o1 = o_vmem o) by (destruct EV as (_ & _ & _ & ->); split; reflexivity). destruct P1 as [P1 V1].
  set (t1 := mkDt (t_pos t) (join (t_pbest t) (t_pos t)) (t_mem t)).
  assert (NB : t_pos t1 <> TBool) by (destruct HT as [HT|[HT _]]; unfold t1; cbn; congruence).
  pose proof (update_cases c e iters i o1 q1) as UC. unfold update_dt. unfold update_swarm in UC |- *. rewrite !G in UC. rewrite !G.
  destruct (oh_call _ _ _ _) as [opts|x] eqn:OH; [|split; [reflexivity|discriminate]]. rewrite velocity_plain by exact NB.
  destruct (compute_velocity _ _ _ _ _ _) as [[v vm]|x] eqn:CV; [|split; [reflexivity|discriminate]]. rewrite !G in UC. rewrite !G.
  set (s2 := set_velocity (set_options (o_swarm o1) opts) v) in *.
  assert (NO : forall b, c_bounds c = Some b -> same_shape (s_position s2) (s_velocity s2) && any_out (N := F64num) (map2 (map2 fadd) (s_position s2) (s_velocity s2)) b = false).
  { intros b B. destruct (same_shape (s_position s2) (s_velocity s2)) eqn:SS; [|reflexivity]. cbn [andb]. destruct (BD b B) as [Bd NO0].
    set (tp := map2 (map2 fadd) (s_position s2) (s_velocity s2)).
    assert (U : Updated (unbounded c) e iters i o1 (with_bmem (with_vmem (with_swarm o1 (set_position s2 tp)) vm) (o_bmem o1)) opts v vm tp (o_bmem o1)).
    { unfold Updated. cbn [unbounded c_kind c_oh c_options c_vh c_clamp c_bounds c_bh]. split; [|repeat split]. rewrite G. split; [exact OH|]. split.
      - rewrite VH in CV |- *. rewrite <- CV. apply adjust_bounds.
      - unfold compute_position. fold s2. rewrite SS. reflexivity. }
    assert (E1 : eqpts n d (s_position (o_swarm o1)) x0) by (rewrite P1; exact E0). assert (BN : forall b, c_bounds (unbounded c) = Some b -> box_dim d b /\ none_outside b x0) by discriminate.
    destruct (frozen_step n d (unbounded c) e iters i o1 _ opts v vm tp (o_bmem o1) m x0 K VH CZ BN M0 FIN E1 (eq_trans V1 VM) EM U) as [[TM TE] _].
    apply (any_out_false d b tp Bd). intros a j x l u X C. destruct (entry_lt n d _ _ _ _ TM X) as [I J]. destruct (entry_in n d _ a j M0 I J) as [y Y].
    pose proof (TE a j x y X Y) as Q. destruct (NO0 a j y l u Y C) as [N1 N2]. pose proof (finite_notnan _ (FIN _ _ _ Y)) as NY. cbn [nlt F64num]. clear -Q N1 N2 NY. ftypes. split; forder. }
  assert (POS : match compute_position_dt c k i (t_pos t1) (velocity_type c k t1) (e_bh e i) (o_bmem (with_vmem (with_swarm (with_swarm o1 (set_options (o_swarm o1) opts)) s2) vm)) s2 with
                | Ok (r, t') => compute_position (e_bh e i) (c_bh c) (o_bmem o1) s2 (c_bounds c) = Ok r /\ (t' = TFlt \/ (t' = TInt /\ t_pos t1 = TInt))
                | Err x => compute_position (e_bh e i) (c_bh c) (o_bmem o1) s2 (c_bounds c) = Err x end).
  { unfold compute_position_dt. cbn [o_bmem with_vmem with_swarm]. destruct HT as [HT|[HT HM]].
    - unfold t1. cbn [t_pos]. rewrite HT. destruct (compute_position _ _ _ _ _) as [[p bm]|x]; cbn [bind]; [split; [reflexivity|left; reflexivity]|reflexivity].
    - assert (VT : velocity_type c k t1 = TInt).
      { unfold velocity_type, adjusts. rewrite VH. cbn [String.eqb Ascii.eqb Bool.eqb]. unfold t1. cbn [t_pos t_mem]. rewrite HT, HM. destruct (c_clamp c); [|reflexivity]. destruct CLK as [CLK|CLK]; [discriminate|]. destruct (dc_clamp k); try reflexivity. congruence. }
      rewrite VT. unfold t1. cbn [t_pos]. rewrite HT. destruct (c_bounds c) as [b|] eqn:B.
      + rewrite (NO b eq_refl). destruct (compute_position _ _ _ _ _) as [[p bm]|x]; cbn [bind]; [|reflexivity]. split; [reflexivity|]. destruct (dc_floats k i); [left|right; split]; reflexivity.
      + destruct (compute_position _ _ _ _ _) as [[p bm]|x]; cbn [bind]; [|reflexivity]. split; [reflexivity|]. right. split; reflexivity. }
  cbn [o_bmem with_vmem with_swarm] in *.
  destruct (compute_position_dt _ _ _ _ _ _ _ _) as [[[p bm] t']|x]; [|rewrite POS; split; [reflexivity|discriminate]].
  destruct POS as [POS T']. rewrite POS in UC |- *. split; [reflexivity|]. intros o' q' t2 E. injection E as <- <- <-. destruct UC as (_ & _ & opts2 & v2 & vm2 & p2 & bm2 & U).
  assert (E1 : eqpts n d (s_position (o_swarm o1)) x0) by (rewrite P1; exact E0).
  destruct (frozen_step n d c e iters i o1 _ opts2 v2 vm2 p2 bm2 m x0 K VH CZ BD M0 FIN E1 (eq_trans V1 VM) EM U) as [EP EV2].
  destruct U as (_ & US & UV & _). split; [|split].
  - cbn [t_pos t_mem]. destruct T' as [T'|[T' T0]]; [left; exact T'|right; split; [exact T'|]]. unfold adjusts. rewrite VH. exact T0.
  - rewrite US. exact EP.
  - exists (s_position (o_swarm o1)). split; [rewrite UV; exact EV2|]. rewrite P1. exact E0.
Qed.
Lemma types_adjust : forall c k e pool iters o t d, c_kind c <> Binary -> c_vh c = "adjust" -> c_clamp c = None \/ dc_clamp k <> TFlt -> at_rest c d (s_position (o_swarm o)) -> t_pos t = TInt ->
  fst (fst (optimize_dt c k e pool iters o t)) = fst (optimize c e pool iters o) /\ snd (optimize_dt c k e pool iters o t) = snd (optimize c e pool iters o).
Proof.
  intros c k e pool iters o t d K VH CLK (CZ & BD & (n & M0) & FIN) HT. apply (optimize_same c k e pool iters (resting c n d (s_position (o_swarm o)))).
  - intros i o1 q t1 H. apply resting_step; assumption.
  - assert (R0 : eqpts n d (s_position (o_swarm o)) (s_position (o_swarm o))).
    { split; [exact M0|]. intros i j x y X Y. pose proof (eq_trans (eq_sym X) Y) as Q. injection Q as ->. pose proof (FIN _ _ _ Y). apply feq_fin; auto. }
    destruct (started_facts c o) as (_ & _ & _ & _ & _ & _ & SS & SV & _). split; [right; split; exact HT|]. split; [rewrite SS; exact R0|]. exists (s_position (o_swarm o)). split; [exact SV|exact R0].
Qed.

(** *** All others *)
Lemma stuck_update : forall c k e iters i o q d, (t_pos d = TBool /\ t_pbest d = TBool) \/ (t_pos d = TInt /\ t_mem d = TInt /\ ~ takes_integers c k) ->
  exists o' d' x, update_dt c k e iters i o q d = DRaise o' d' x /\ core_eq o o' /\ s_position (o_swarm o') = s_position (o_swarm o) /\
    ((exists o2 q2, update_swarm c e iters i o q = Next o2 q2) -> x = TypeError).
Proof.
  intros c k e iters i o q d H. unfold update_dt, update_swarm.
  destruct (match c_kind c with Binary => _ | _ => _ end) as [opts|x]; [|exists o, d, x; split; [reflexivity|]; split; [apply core_eq_refl|]; split; [reflexivity|]; intros (? & ? & Q); discriminate Q].
  destruct H as [[H1 H2]|(H1 & HM & H2)].
  - unfold compute_velocity_dt. rewrite H1, H2. cbn [bools]. unfold compute_velocity. cbn [s_options set_options].
    destruct (num_of opts "c1"); cbn [bind]; [|do 3 eexists; split; [reflexivity|]; split; [constructor; reflexivity|]; split; [reflexivity|]; intros (? & ? & Q); discriminate Q].
    destruct (num_of opts "c2"); cbn [bind]; [|do 3 eexists; split; [reflexivity|]; split; [constructor; reflexivity|]; split; [reflexivity|]; intros (? & ? & Q); discriminate Q].
    destruct (num_of opts "w"); cbn [bind]; [|do 3 eexists; split; [reflexivity|]; split; [constructor; reflexivity|]; split; [reflexivity|]; intros (? & ? & Q); discriminate Q].
    do 3 eexists. split; [reflexivity|]. split; [constructor; reflexivity|]. split; reflexivity.
  - rewrite velocity_plain by congruence. destruct (compute_velocity _ _ _ _ _ _) as [[v vm]|x]; [|do 3 eexists; split; [reflexivity|]; split; [constructor; reflexivity|]; split; [reflexivity|]; intros (? & ? & Q); discriminate Q].
    assert (K : c_kind c <> Binary) by (intros K; apply H2; left; exact K).
    assert (G : forall A (a b : A), match c_kind c with Binary => a | _ => b end = b) by (intros; destruct (c_kind c); congruence). rewrite !G.
    assert (VT : velocity_type c k d = TFlt).
    { unfold velocity_type, adjusts. destruct (String.eqb_spec (c_vh c) "adjust") as [VH|]; [|reflexivity]. rewrite H1, HM. cbn [join]. destruct (c_clamp c) eqn:CL.
      - destruct (dc_clamp k) eqn:DC; try reflexivity; exfalso; apply H2; right; (split; [exact VH|right; congruence]).
      - exfalso. apply H2. right. split; [exact VH|left; exact CL]. }
    rewrite VT, H1. cbn [compute_position_dt]. do 3 eexists. split; [reflexivity|]. split; [constructor; reflexivity|]. split; reflexivity.
Qed.
Lemma first_iteration : forall c k e pool iters o d, 1 <= c_ftol_iter c -> refused c k d ->
  exists o' d' x, iteration_dt c k e pool iters 0 (started c o) [] (mkDt (t_pos d) (t_pbest d) (t_pos d)) = DRaise o' d' x /\ s_position (o_swarm o') = s_position (o_swarm o) /\
    (forall o2 q2, iteration c e pool iters 0 (started c o) [] = Next o2 q2 -> x = TypeError /\ core_eq o' o2 /\
       exists bc mp mn p v, o_cost_history o' = o_cost_history o ++ [bc] /\ o_mean_pbest_history o' = o_mean_pbest_history o ++ [mp] /\ o_mean_neighbor_history o' = o_mean_neighbor_history o ++ [mn] /\
         o_pos_history o' = o_pos_history o ++ [p] /\ o_velocity_history o' = o_velocity_history o ++ [v]).
Proof.
  intros c k e pool iters o d F H. destruct (started_facts c o) as (_ & A1 & A2 & A3 & A4 & A5 & A6 & _).
  unfold iteration_dt, iteration. pose proof (evaluate_cases c e pool 0 (started c o) []) as EV. destruct (evaluate_swarm c e pool 0 (started c o) []) as [o1 q1|o1|o1 x].
  - destruct EV as (cost & pp & pc & tt & bp & bc & np & EV & _). destruct EV as (_ & _ & _ & EV).
    destruct (stuck_update c k e iters 0 o1 q1 (mkDt (t_pos d) (join (t_pbest d) (t_pos d)) (t_pos d))) as (o' & d' & x & E & CE & P & T).
    { cbn [t_pos t_pbest t_mem]. destruct H as [[H1 H2]|[H1 H2]]; [left; rewrite H1, H2; split; reflexivity|right; auto]. }
    exists o', d', x. split; [exact E|]. split; [rewrite P, EV; unfold started, start_pbest, start_memory; destruct (c_kind c); reflexivity|]. intros o2 q2 U. split; [apply T; eauto|].
    pose proof (update_cases c e iters 0 o1 q1) as UC. rewrite U in UC. destruct UC as (_ & CE2 & _). split; [destruct CE, CE2; constructor; congruence|].
    destruct CE. rewrite EV in *. cbn [populate_history with_top with_swarm o_cost_history o_mean_pbest_history o_mean_neighbor_history o_pos_history o_velocity_history] in *. rewrite A1 in *. rewrite A2 in *. rewrite A3 in *. rewrite A4 in *. rewrite A5 in *.
    do 5 eexists. repeat split; eassumption.
  - exfalso. destruct EV as (cost & pp & pc & tt & bp & bc & np & _ & EV). apply andb_prop in EV. destruct EV as [EV _]. apply Nat.leb_le in EV. lia.
  - exists o1, (mkDt (t_pos d) (t_pbest d) (t_pos d)), x. split; [reflexivity|]. split; [|discriminate]. destruct EV; unfold started, start_pbest, start_memory; destruct (c_kind c); reflexivity.
Qed.
Lemma types_stuck : forall c k e pool iters o d, 1 <= iters -> 1 <= c_ftol_iter c -> refused c k d ->
  exists o' d' x, optimize_dt c k e pool iters o d = (o', d', Err x) /\ s_position (o_swarm o') = s_position (o_swarm o).
Proof.
  intros c k e pool iters o d I F H. destruct (first_iteration c k e pool iters o d F H) as (o' & d' & x & E & P & _). unfold optimize_dt.
  destruct iters as [|m]; [lia|]. cbn [loop_dt]. fold (started c o). rewrite E. destruct pool as [[|n]|]; do 3 eexists; (split; [reflexivity|]); try exact P. unfold start_memory. destruct (c_kind c); reflexivity.
Qed.
Definition longer {A : Type} (h h' : list A) : Prop := exists r, h' = h ++ r.
Lemma longer_refl : forall A (h : list A), longer h h. Proof. intros. exists []. rewrite app_nil_r. reflexivity. Qed.
Lemma longer_trans : forall A (a b c : list A), longer a b -> longer b c -> longer a c.
Proof. intros A a b c [r ->] [s ->]. exists (r ++ s). rewrite app_assoc. reflexivity. Qed.
Definition grows (o o' : ostate) : Prop := longer (o_cost_history o) (o_cost_history o') /\ longer (o_mean_pbest_history o) (o_mean_pbest_history o') /\ longer (o_mean_neighbor_history o) (o_mean_neighbor_history o') /\
  longer (o_pos_history o) (o_pos_history o') /\ longer (o_velocity_history o) (o_velocity_history o').
Lemma grows_trans : forall a b c, grows a b -> grows b c -> grows a c.
Proof. intros a b c (A1 & A2 & A3 & A4 & A5) (B1 & B2 & B3 & B4 & B5). repeat split; eapply longer_trans; eauto. Qed.
Lemma core_grows : forall a b, core_eq a b -> grows a b.
Proof. intros a b []. unfold grows. repeat split; match goal with |- longer ?x ?y => replace y with x by congruence end; apply longer_refl. Qed.
Lemma loop_grows : forall c e pool iters m i o q o', opt_loop c e pool iters m i o q = LDone o' -> grows o o'.
Proof.
  intros c e pool iters. induction m as [|m IH]; intros i o q o' H; cbn [opt_loop] in H; [injection H as <-; apply core_grows, core_eq_refl|]. unfold iteration in H.
  pose proof (evaluate_cases c e pool i o q) as EV. destruct (evaluate_swarm c e pool i o q) as [o1 q1|o1|o1 x]; [| |discriminate H].
  - assert (G : grows o o1) by (destruct EV as (cost & pp & pc & tt & bp & bc & np & (_ & _ & _ & ->) & _); repeat split; eexists; reflexivity).
    pose proof (update_cases c e iters i o1 q1) as UC. destruct (update_swarm c e iters i o1 q1) as [o2 q2|o2|o2 x]; [|contradiction|discriminate H].
    destruct UC as (_ & CE & _). eapply grows_trans; [exact G|]. eapply grows_trans; [apply core_grows; exact CE|]. exact (IH _ _ _ _ H).
  - injection H as <-. destruct EV as (cost & pp & pc & tt & bp & bc & np & (_ & _ & _ & ->) & _). repeat split; eexists; reflexivity.
Qed.
Lemma types_error : forall c k e pool iters o d o2 v, 1 <= iters -> 1 <= c_ftol_iter c -> refused c k d -> optimize c e pool iters o = (o2, Ok v) ->
  exists o' d', optimize_dt c k e pool iters o d = (o', d', Err TypeError) /\ s_position (o_swarm o') = s_position (o_swarm o) /\ one_entry o o' o2.
Proof.
  intros c k e pool iters o d o2 v I F H O. destruct (first_iteration c k e pool iters o d F H) as (o' & d' & x & E & P & T). unfold optimize_dt. unfold optimize in O.
  destruct iters as [|m]; [lia|]. cbn [loop_dt]. cbn [opt_loop] in O. fold (started c o) in O |- *. rewrite E.
  destruct (iteration c e pool (S m) 0 (started c o) []) as [o3 q3|o3|o3 y] eqn:IT.
  - destruct (T o3 q3 eq_refl) as (-> & CE & bc & mp & mn & p & vv & H1 & H2 & H3 & H4 & H5).
    assert (GR : grows o3 o2) by (destruct pool as [[|n]|]; [discriminate O| |]; (destruct (opt_loop c e _ (S m) m 1 o3 q3) as [o4|o4 y] eqn:L; [|discriminate O]; injection O as <- _; exact (loop_grows _ _ _ _ _ _ _ _ _ L))).
    exists o', d'. split; [destruct pool as [[|n]|]; [discriminate O| |]; reflexivity|]. split; [exact P|]. destruct GR as ([r1 G1] & [r2 G2] & [r3 G3] & [r4 G4] & [r5 G5]). destruct CE.
    split; [|split; [|split; [|split]]]; (eexists; eexists; split; [eassumption|]).
    + rewrite G1, ce_ch, H1, <- app_assoc. reflexivity.
    + rewrite G2, ce_mp, H2, <- app_assoc. reflexivity.
    + rewrite G3, ce_mn, H3, <- app_assoc. reflexivity.
    + rewrite G4, ce_ph, H4, <- app_assoc. reflexivity.
    + rewrite G5, ce_vh, H5, <- app_assoc. reflexivity.
  - exfalso. clear -IT F. unfold iteration in IT. pose proof (evaluate_cases c e pool 0 (started c o) []) as EV. destruct (evaluate_swarm c e pool 0 (started c o) []) as [o1 q1|o1|o1 x]; [|destruct EV as (cost & pp & pc & tt & bp & bc & np & _ & EV); apply andb_prop in EV; destruct EV as [EV _]; apply Nat.leb_le in EV; lia|discriminate].
    pose proof (update_cases c e (S m) 0 o1 q1) as UC. rewrite IT in UC. exact UC.
  - destruct pool as [[|n]|]; discriminate O.
Qed.

Lemma types_exactly : forall c k e pool iters top dr o o2 v it, construct c top dr = Ok o -> 1 <= iters -> optimize c e pool iters o = (o2, Ok v) ->
  (c_vh c = "adjust" -> exists d, at_rest c d (s_position (o_swarm o))) ->
  (snd (optimize_dt c k e pool iters o (new_types c it)) = Ok v <-> c_init c = None \/ it = TFlt \/ (it = TInt /\ takes_integers c k)).
Proof.
  intros c k e pool iters top dr o o2 v it C I O AR. assert (F : 1 <= c_ftol_iter c).
  { unfold construct in C. apply bind_Ok in C. destruct C as (_ & _ & C). destruct (Nat.eqb_spec (c_ftol_iter c) 0); [discriminate C|lia]. }
  assert (OK : snd (optimize c e pool iters o) = Ok v) by (rewrite O; reflexivity).
  split.
  - intros H. destruct (c_init c) as [ip|] eqn:CI; [|left; reflexivity]. right. assert (ST : refused c k (new_types c it) -> False).
    { intros R. destruct (types_error c k e pool iters o (new_types c it) o2 v I F R O) as (o' & d' & E & _). rewrite E in H. discriminate H. }
    unfold refused, new_types in ST. rewrite CI in ST. cbn [t_pos t_pbest] in ST. destruct it; [exfalso; apply ST; left; split; reflexivity| |left; reflexivity]. right. split; [reflexivity|].
    destruct (c_kind c) eqn:K; [| | |left; exact K]; right; (destruct (String.eqb_spec (c_vh c) "adjust") as [VH|VH]; [|exfalso; apply ST; right; split; [reflexivity|]; intros [T|[T _]]; congruence]);
    (split; [exact VH|]); (destruct (c_clamp c) eqn:CL; [right|left; reflexivity]); intros DC; apply ST; right; (split; [reflexivity|]); (intros [T|[_ [T|T]]]; congruence).
  - intros H. assert (T : t_pos (new_types c it) = TFlt \/ (t_pos (new_types c it) = TInt /\ takes_integers c k)).
    { unfold new_types. cbn [t_pos]. destruct (c_init c).
      - destruct H as [H|[H|[H1 H2]]]; [discriminate H|left; exact H|right; split; assumption].
      - destruct (c_kind c) eqn:K; [left; reflexivity|left; reflexivity|left; reflexivity|right; split; [reflexivity|left; exact K]]. }
    destruct T as [T|[T [K|[VH CL]]]].
    + rewrite (proj2 (types_plain c k e pool iters o (new_types c it) ltac:(congruence) (or_intror T))). exact OK.
    + rewrite (proj2 (types_plain c k e pool iters o (new_types c it) ltac:(congruence) (or_introl K))). exact OK.
    + destruct (AR VH) as (d & A). assert (D : c_kind c = Binary \/ c_kind c <> Binary) by (destruct (c_kind c); [right|right|right|left]; congruence). destruct D as [K|K].
      * rewrite (proj2 (types_plain c k e pool iters o (new_types c it) ltac:(congruence) (or_introl K))). exact OK.
      * rewrite (proj2 (types_adjust c k e pool iters o (new_types c it) d K VH CL A T)). exact OK.
Qed.
