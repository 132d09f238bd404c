(** What one score of a search is. *)
From Coq Require Import String ZArith List Arith Bool Lia.
From Verif Require Import Prelude F64 F64Facts Num Np Handlers Swarms Operators Generators Topology Optimizers
  ListFacts Search Spec SpecSearch SearchFacts RunFacts RunMain RunStop SpecHandlers SpecDyn SpecRun GenFacts Accept Demo.
Import ListNotations.
Local Open Scope string_scope.
Local Open Scope list_scope.
Local Open Scope nat_scope.

(** Which optimizers can be scored. *)
Lemma score_object_inv : forall kind n d b cl g dr c o, score_object kind n d b cl g dr = Ok (c, o) ->
  c = score_config kind n d b cl None g /\ construct c (score_topology kind) dr = Ok o /\ kind <> General /\ (kind = Binary -> b = None).
Proof.
  intros kind n d b cl g dr c o H. unfold score_object in H.
  destruct kind; try (apply bind_Ok in H; destruct H as (o1 & C & H); try discriminate; injection H as <- <-; repeat split; auto; discriminate).
  destruct b as [q|]; apply bind_Ok in H; destruct H as (o1 & C & H); try discriminate. injection H as <- <-. repeat split; auto. discriminate.
Qed.

Lemma score_full : forall kind n d b cl iters dr e i g s,
  generate_score kind n d b cl iters dr e i g = Ok s ->
  kind <> General /\ (kind = Binary -> b = None) /\
  exists c o o' pos, plain_config kind n d b cl g c /\ construct c (o_top o) (dr i) = Ok o /\
    (kind = GlobalBest -> t_kind (o_top o) = Star) /\ (kind <> GlobalBest -> t_kind (o_top o) = Ring /\ t_static (o_top o) = false) /\
    optimize c (e i) None iters o = (o', Ok (s, pos)) /\
    length (o_cost_history o') = iters /\ length (o_pos_history o') = iters.
Proof.
  intros kind n d b cl iters dr e i g s H. unfold generate_score in H. apply bind_Ok in H. destruct H as ([c o] & C & S).
  apply score_object_inv in C. destruct C as (EC & C & KG & KB). cbn [fst snd] in S. split; [exact KG|]. split; [exact KB|].
  apply bind_Ok in S. destruct S as ([cost pos] & R & S). injection S as ->.
  destruct (optimize c (e i) None iters o) as [o' r] eqn:E. cbn in R. subst r.
  exists c, o, o', pos.
  destruct (construct_top _ _ _ _ C) as [Fr Tp].
  assert (FT : c_ftol c = fninf) by (rewrite EC; reflexivity).
  pose proof (default_ftol_iters _ _ _ _ _ _ _ (Reach_construct _ _ _ _ C) FT E) as (h & k & L & _ & P & Q & _).
  destruct (Fresh_inv _ _ Fr) as (dm & p & v & _ & H1 & _ & _ & H2 & _).
  rewrite H1 in Q. rewrite H2 in P. cbn [length app] in P, Q.
  split; [rewrite EC; repeat split|]. split; [rewrite Tp; exact C|]. rewrite Tp.
  split; [intros ->; reflexivity|]. split. { intros KK. destruct kind; try congruence; split; reflexivity. } split; [exact E|].
  split; [exact Q|]. rewrite P. exact L.
Qed.
(** GeneralOptimizerPSO takes a topology where the search passes the bounds, BinaryPSO initial positions. *)
Lemma score_general : forall n d b cl iters dr e i g, (forall q, cl = Some q -> length (fst q) = d /\ length (snd q) = d) ->
  generate_score General n d b cl iters dr e i g = Err TypeError.
Proof.
  intros n d b cl iters dr e i g CL. unfold generate_score, score_object.
  destruct (proj2 (accepted (score_config General n d None cl None g) (score_topology General) (dr i) ltac:(discriminate))) as [o ->]; [|reflexivity].
  unfold accepts. cbn. split; [intros [H|H]; discriminate|]. split; [lia|]. split; [exact CL|]. split; [discriminate|]. split; [discriminate|]. split; [discriminate|].
  intros _ _. apply repeat_length.
Qed.
Lemma score_binary_bounds : forall n d (q : bounds F64num) cl iters dr e i g, (forall c, cl = Some c -> length (fst c) = d /\ length (snd c) = d) ->
  dget g "k" <> None -> dget g "p" <> None -> (forall a j (x : f64), entry [b_lb q; b_ub q] a j = Some x -> fisnan x = false) ->
  (two_valued [b_lb q; b_ub q] -> generate_score Binary n d (Some q) cl iters dr e i g = Err AttributeError) /\
  (~ two_valued [b_lb q; b_ub q] -> generate_score Binary n d (Some q) cl iters dr e i g = Err ValueError).
Proof.
  intros n d q cl iters dr e i g CL K P NN. unfold generate_score, score_object.
  assert (N : forall p a j x, Some [b_lb q; b_ub q] = Some p -> entry p a j = Some x -> fisnan x = false).
  { intros p a j x Q. injection Q as <-. apply NN. }
  split; intros TV.
  - destruct (proj2 (accepted (score_config Binary n d None cl (Some [b_lb q; b_ub q]) g) (score_topology Binary) (dr i) (fun _ => N))) as [o ->]; [|reflexivity].
    unfold accepts. cbn. split; [auto|]. split; [lia|]. split; [exact CL|]. split. { intros _ p Q. injection Q as <-. exact TV. }
    repeat split; congruence.
  - unfold construct. cbn [c_kind score_config c_options c_ftol_iter Nat.eqb]. destruct (dget g "k"); [|congruence]. destruct (dget g "p"); [|congruence]. cbn [of_option bind].
    unfold make_swarm. cbn [c_kind score_config c_init]. unfold create_swarm.
    destruct (generate_discrete_swarm true (Some [b_lb q; b_ub q]) (cd_bits (dr i)) (cd_pos (dr i))) as [m|x] eqn:E.
    + exfalso. apply TV. exact (proj1 (discrete_okay (cd_bits (dr i)) (cd_pos (dr i)) (Some [b_lb q; b_ub q]) N) (ex_intro _ m E) _ eq_refl).
    + unfold generate_discrete_swarm in E. destruct (Nat.leb _ 2); [discriminate|]. injection E as <-. reflexivity.
Qed.


(** A search runs every entry of its grid. *)
Lemma search_entries : forall a maximum dr e r s g, search_with a maximum dr e r = Ok (s, g) ->
  exists kind cl grid scores, sa_optimizer a = Some kind /\ r = Ok grid /\ given_clamp a cl /\ length scores = length grid /\
    (forall i h x, nth_error grid i = Some h -> nth_error scores i = Some x -> entry_run kind a cl dr e i h x) /\
    (exists i, nth_error grid i = Some g /\ nth_error scores i = Some s) /\
    (no_nan scores -> forall i x, nth_error scores i = Some x -> if maximum then fle x s = true else fle s x = true).
Proof.
  intros a maximum dr e r s g H. unfold search_with in H. destruct (sa_optimizer a) as [kind|] eqn:K; [|discriminate]. cbn [of_option bind] in H.
  destruct r as [grid|]; [|discriminate]. cbn [bind] in H.
  assert (CL : given_clamp a (sa_clamp a)). { unfold given_clamp, sa_clamp. destruct (sa_vclamp a); split; congruence. }
  destruct (search_claim _ _ _ _ _ H) as (scores & [L S] & B). destruct (search_hit _ _ _ _ _ H) as (i & G & SG).
  exists kind, (sa_clamp a), grid, scores. split; [reflexivity|]. split; [reflexivity|]. split; [exact CL|]. split; [exact L|]. split; [|split].
  - intros j h x HG HS. specialize (S _ _ _ HG HS). destruct (score_full _ _ _ _ _ _ _ _ _ _ _ S) as (_ & _ & c & o & o' & pos & PC & CO & T1 & T2 & E & _).
    exists c, o, o', pos. auto 10.
  - exists i. split; [exact G|]. destruct (nth_error_ex scores i) as [x X]. { rewrite L. apply nth_error_lt in G. exact G. }
    rewrite X. f_equal. specialize (S _ _ _ G X). pose proof (eq_trans (eq_sym S) SG) as Q. injection Q as Q. exact Q.
  - intros NN. destruct (B NN) as (j & _ & _ & Q & _). exact Q.
Qed.
(** GridSearch: every combination of candidates is run once, the answer is a best one. *)
Lemma grid_full : forall a opts maximum dr e s g, run_grid_search a opts maximum dr e = Ok (s, g) ->
  exists kind cl pos (score : list nat -> f64), sa_optimizer a = Some kind /\ given_clamp a cl /\
    (forall idx idx', selection opts idx -> selection opts idx' -> pos idx = pos idx' -> idx = idx') /\
    (forall idx, selection opts idx -> exists h, selects opts idx h /\ entry_run kind a cl dr e (pos idx) h (score idx)) /\
    (exists idx, selection opts idx /\ selects opts idx g /\ score idx = s) /\
    ((forall idx, selection opts idx -> fisnan (score idx) = false) ->
     forall idx, selection opts idx -> if maximum then fle (score idx) s = true else fle s (score idx) = true).
Proof.
  intros a opts maximum dr e s g H. unfold run_grid_search in H.
  destruct (search_entries _ _ _ _ _ _ _ H) as (kind & cl & grid & scores & K & G & CL & L & RUN & (i & HG & HS) & BEST).
  assert (NE : opts <> []). { intros ->. discriminate. }
  destruct (grid_claim opts NE) as (grid' & pos & G' & _ & SEL & INJ & SUR). pose proof (eq_trans (eq_sym G) G') as Q. injection Q as <-.
  exists kind, cl, pos, (fun idx => nth (pos idx) scores fzero). split; [exact K|]. split; [exact CL|]. split; [exact INJ|].
  assert (SC : forall idx, selection opts idx -> exists h, nth_error grid (pos idx) = Some h /\ selects opts idx h /\ nth_error scores (pos idx) = Some (nth (pos idx) scores fzero)).
  { intros idx S. destruct (SEL idx S) as (h & H1 & H2). exists h. split; [exact H1|]. split; [exact H2|].
    apply nth_error_nth'. rewrite L. apply nth_error_lt in H1. exact H1. }
  split; [|split].
  - intros idx S. destruct (SC idx S) as (h & H1 & H2 & H3). exists h. split; [exact H2|]. exact (RUN _ _ _ H1 H3).
  - destruct (SUR i) as (idx & S & E). { apply nth_error_lt in HG. exact HG. } exists idx. split; [exact S|].
    destruct (SC idx S) as (h & H1 & H2 & H3). rewrite E in H1. pose proof (eq_trans (eq_sym HG) H1) as Q. injection Q as <-.
    split; [exact H2|]. apply nth_error_nth. rewrite E. exact HS.
  - intros NN idx S. destruct (SC idx S) as (h & _ & _ & H3). refine (BEST _ _ _ H3).
    intros x X. apply In_nth_error in X. destruct X as (j & X). destruct (SUR j) as (idx' & S' & E). { rewrite <- L. apply nth_error_lt in X. exact X. }
    specialize (NN idx' S'). destruct (SC idx' S') as (_ & _ & _ & H4). rewrite E in NN, H4. pose proof (eq_trans (eq_sym X) H4) as Q. injection Q as ->. exact NN.
Qed.
(** RandomSearch: as many runs as selections. *)
Lemma random_full : forall a rd nsel opts maximum dr e s g, run_random_search a rd nsel opts maximum dr e = Ok (s, g) ->
  exists kind cl n grid scores, sa_optimizer a = Some kind /\ given_clamp a cl /\ nsel = Some n /\ snd (random_search rd n opts) = Ok grid /\
    length scores = length grid /\
    (forall i h x, nth_error grid i = Some h -> nth_error scores i = Some x -> entry_run kind a cl dr e i h x) /\
    (exists i, nth_error grid i = Some g /\ nth_error scores i = Some s) /\
    (no_nan scores -> forall i x, nth_error scores i = Some x -> if maximum then fle x s = true else fle s x = true).
Proof.
  intros a rd nsel opts maximum dr e s g H. unfold run_random_search in H. destruct (sa_optimizer a) eqn:K; [|discriminate]. destruct nsel as [n|]; [|discriminate].
  cbn [of_option bind] in H. destruct (search_entries _ _ _ _ _ _ _ H) as (kind & cl & grid & scores & K' & G & CL & L & RUN & HIT & BEST).
  exists kind, cl, n, grid, scores. rewrite K in K'. auto 10.
Qed.
(** Wrong types. *)
Lemma search_types : forall a rd nsel opts ropts maximum dr e,
  (sa_optimizer a = None -> run_grid_search a opts maximum dr e = Err TypeError /\ run_random_search a rd nsel ropts maximum dr e = Err TypeError) /\
  (nsel = None -> run_random_search a rd nsel ropts maximum dr e = Err TypeError).
Proof.
  intros. unfold run_grid_search, run_random_search, search_with. split.
  - intros ->. split; reflexivity.
  - intros ->. destruct (sa_optimizer a); reflexivity.
Qed.
