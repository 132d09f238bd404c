(** Proofs of C89: a well-configured optimizer does not raise. *)
From Coq Require Import String ZArith List Arith Bool Lia.
From Verif Require Import Prelude ListFacts F64 F64Facts Num Np NpFacts Handlers Swarms Operators Generators Topology Optimizers Spec SpecHandlers SpecOpts SpecRun SpecReflect SpecSafe
  RunFacts PbestFacts ShapeFacts GbestFacts RunMain RunMisc RunMono TopoGraphs ShuffleTopo Shapes OptFacts Accept OneFacts.
Import ListNotations.
Local Open Scope string_scope.
Local Open Scope list_scope.

Definition usable (n d : nat) (bp : fbestpos) : Prop := exists m, best_rows (N := F64num) n d bp = Ok m /\ is_matrix n d m.
Definition nb_ok (n : nat) (t : topology) : Prop := t_kind t <> Star -> forall nb, t_nb t = Some nb -> hoods n (nb_rows nb) /\ nb_ndim nb = 2.

Lemma hood_gbest : forall n d (s : fswarm) rows, 1 <= n -> hoods n rows -> length (s_pbest_cost s) = n -> is_matrix n d (s_pbest_pos s) ->
  exists m bc, neighborhood_gbest s rows = Ok (BPMat m, bc, true) /\ is_matrix n d m.
Proof.
  intros n d s rows N [L H] C [P1 P2].
  assert (G : exists bn, mapM (best_of (s_pbest_cost s)) rows = Ok bn /\ length bn = length rows /\ Forall (fun j => j < n) bn).
  { clear L. induction H as [|row rows [R1 R2] H IH]; [exists []; repeat split; constructor|]. destruct IH as (bn & B & L & F).
    destruct (best_of_total (s_pbest_cost s) row R1) as (j & J); [ftypes; rewrite C; exact R2|]. destruct (best_of_in _ _ _ J) as [JI _].
    exists (j :: bn). cbn [mapM]. rewrite J. cbn [bind]. rewrite B. cbn [bind length]. split; [reflexivity|]. split; [lia|]. constructor; [|exact F]. rewrite Forall_forall in R2. auto. }
  destruct G as (bn & B & LB & F). unfold neighborhood_gbest, pick_best. rewrite B. cbn [bind].
  destruct (np_take_ok (s_pbest_cost s) bn) as (cs & T1); [ftypes; rewrite C; exact F|]. destruct (np_take_ok (s_pbest_pos s) bn) as (m & T2); [ftypes; rewrite P1; exact F|].
  assert (LC : length cs = length bn) by (eapply mapM_length; exact T1). assert (LM : length m = length bn) by (eapply mapM_length; exact T2).
  destruct (np_min_ok cs) as (bc & M); [destruct cs; cbn in LC; [lia|discriminate]|]. rewrite T1. cbn [bind]. rewrite M. cbn [bind]. rewrite T2. cbn [bind]. exists m, bc. split; [reflexivity|].
  split; [ftypes; lia|]. apply Forall_forall. intros r R. rewrite Forall_forall in P2. apply P2. eapply np_take_In; [exact T2|exact R].
Qed.
Lemma usable_vec : forall n d (p : frow), length p = d -> usable n d (BPVec p).
Proof.
  intros n d p L. exists (repeat p n). split; [reflexivity|]. split; [apply repeat_length|]. apply Forall_forall. intros r R. apply repeat_spec in R. subst r. exact L.
Qed.
Lemma usable_mat : forall n d (m : fmatrix), is_matrix n d m -> usable n d (BPMat m).
Proof. intros n d m M. exists m. split; [reflexivity|exact M]. Qed.
Lemma row_len : forall n d (m : fmatrix) i p, is_matrix n d m -> nth_error m i = Some p -> length p = d.
Proof. intros n d m i p [_ F] E. rewrite Forall_forall in F. apply F. eapply nth_error_In; eauto. Qed.

Definition outcome (n d : nat) (t : topology) (s : fswarm) (r : topology * res gbest) : Prop :=
  exists t' bp bc np, r = (t', Ok (bp, bc, np)) /\ t_kind t' = t_kind t /\ nb_ok n t' /\
    ((np = true /\ usable n d bp) \/ (t_kind t = Star /\ bp = s_best_pos s /\ bc = s_best_cost s /\ np = s_best_np s)) /\
    (t_kind t = Star -> nonan (s_pbest_cost s) -> (exists v, In v (s_pbest_cost s) /\ flt v (s_best_cost s) = true) -> fisnan (s_best_cost s) = false -> np = true /\ usable n d bp).
Lemma star_outcome : forall n d t (s : fswarm), 1 <= n -> t_kind t = Star -> length (s_pbest_cost s) = n -> is_matrix n d (s_pbest_pos s) -> outcome n d t s (star_gbest t s).
Proof.
  intros n d t s N K C P. assert (NE : s_pbest_cost s <> []) by (intros Z; rewrite Z in C; cbn in C; lia). unfold star_gbest, outcome.
  set (t' := match t_nb t with None => _ | _ => _ end). assert (T : t_kind t' = t_kind t) by (unfold t'; destruct (t_nb t); reflexivity).
  assert (NB : nb_ok n t') by (intros Q; rewrite T in Q; congruence). clearbody t'.
  destruct (np_min_ok _ NE) as (m & M). ftypes. rewrite M. cbn [bind]. destruct (flt m (s_best_cost s)) eqn:LT.
  - destruct (np_argmin_ok _ NE) as (i & I). pose proof (np_argmin_lt _ _ I) as LI. ftypes. rewrite I. cbn [bind]. destruct (nth_error_ex (s_pbest_pos s) i) as (p & PP); [destruct P; ftypes; lia|]. ftypes. rewrite PP. cbn [of_option bind].
    assert (U : usable n d (BPVec (N := F64num) p)) by (apply usable_vec; eapply row_len; eauto). exists t', (BPVec (N := F64num) p), m, true. split; [reflexivity|]. auto 6.
  - exists t', (s_best_pos s), (s_best_cost s), (s_best_np s). split; [reflexivity|]. split; [exact T|]. split; [exact NB|]. split; [right; auto|]. intros _ NN (v & V & L) BN. exfalso.
    destruct (np_min_spec _ _ NN M) as (IM & LE & NM). specialize (LE v V). assert (NV : fisnan v = false) by (unfold nonan in NN; rewrite Forall_forall in NN; auto). clear - LT LE L NM NV BN. forder.
Qed.
Lemma hood_outcome : forall n d t t' (s : fswarm) rows, 1 <= n -> t_kind t <> Star -> t_kind t' = t_kind t -> nb_ok n t' -> hoods n rows -> length (s_pbest_cost s) = n -> is_matrix n d (s_pbest_pos s) ->
  outcome n d t s (t', neighborhood_gbest s rows).
Proof.
  intros n d t t' s rows N K T NB H C P. destruct (hood_gbest n d s rows N H C P) as (m & bc & E & M). exists t', (BPMat m), bc, true. rewrite E. split; [reflexivity|]. split; [exact T|]. split; [exact NB|].
  pose proof (usable_mat n d m M) as U. split; [left; auto|]. intros Q. congruence.
Qed.
Lemma ring_outcome : forall n d te p k t (s : fswarm), 1 <= n -> t_kind t <> Star -> nb_ok n t -> (2 <= k)%Z -> (exists rows, te_knn te p (Z.to_nat k) (s_position s) = Ok rows /\ hoods n rows) ->
  length (s_pbest_cost s) = n -> is_matrix n d (s_pbest_pos s) -> outcome n d t s (ring_gbest te p k t s).
Proof.
  intros n d te p k t s N K NB K2 (rows & Q & H) C P. unfold ring_gbest. assert (K1 : (k =? 1)%Z = false) by (apply Z.eqb_neq; lia). assert (K0 : (k <? 1)%Z = false) by (apply Z.ltb_ge; lia). rewrite K1, K0, Q.
  destruct (needs_neighbors t) eqn:NN.
  - cbn [nb_ndim nb_rows Nat.eqb]. apply hood_outcome; auto. intros _ nb E. cbn in E. injection E as <-. split; [exact H|reflexivity].
  - unfold needs_neighbors in NN. destruct (t_nb t) as [nb|] eqn:E; [|destruct (t_static t); discriminate]. destruct (NB K nb E) as [H1 H2]. rewrite H2. cbn [Nat.eqb]. apply hood_outcome; auto.
Qed.
Lemma delannoy_pos : forall d r, 1 <= delannoy d r.
Proof. induction d as [|d IH]; intros r; [destruct r; cbn; lia|]. induction r as [|r IHr]; [cbn; lia|]. pose proof (IH (S r)). pose proof (IH r). change (1 <= delannoy d (S r) + delannoy d r + delannoy (S d) r). lia. Qed.
Lemma delannoy_two : forall d r, 1 <= d -> 1 <= r -> 2 <= delannoy d r.
Proof.
  intros [|d] [|r] D R; try lia. change (2 <= delannoy d (S r) + delannoy d r + delannoy (S d) r). pose proof (delannoy_pos d (S r)). pose proof (delannoy_pos d r). lia.
Qed.
Lemma random_hoods : forall n k ch adj, random_adj 1 n k ch = Ok adj -> hoods n (random_rows n adj).
Proof.
  intros n k ch adj H. destruct (random_adj_good _ _ _ _ H) as (_ & _ & R & _). unfold random_rows, hoods. split; [rewrite map_length, seq_length; reflexivity|]. apply Forall_forall. intros r I. apply in_map_iff in I. destruct I as (i & <- & I).
  split.
  - intros Z. assert (X : In i (filter (adj i) (seq 0 n))) by (apply filter_In; split; [exact I|apply R]). rewrite Z in X. exact X.
  - apply Forall_forall. intros j J. apply filter_In in J. destruct J as [J _]. apply in_seq in J. lia.
Qed.
Lemma complete_hoods : forall n, 1 <= n -> hoods n (nb_rows (complete_nb n)).
Proof.
  intros n N. cbn. split; [apply repeat_length|]. apply Forall_forall. intros r R. apply repeat_spec in R. subst r. split; [destruct n; [lia|discriminate]|]. apply Forall_forall. intros j J. apply in_seq in J. lia.
Qed.

Section Safe.
Variables (c : config) (tk : topo_kind).
Hypotheses (CO : consistent c) (SU : suits c tk)
  (CL : forall cl, c_clamp c = Some cl -> length (fst cl) = c_d c /\ length (snd cl) = c_d c)
  (BX : c_kind c <> Binary -> forall b, c_bounds c = Some b -> box_dim (c_d c) b).
Notation n := (c_n c).
Notation d := (c_d c).

Lemma gbest_outcome : forall e iters i t (s : fswarm), delivers c tk e iters -> i < iters -> t_kind t = tk -> nb_ok n t -> s_n s = n -> s_d s = d -> is_matrix n d (s_position s) ->
  length (s_pbest_cost s) = n -> is_matrix n d (s_pbest_pos s) -> outcome n d t s (compute_gbest (e_top e i) (gbest_args c) t s).
Proof.
  intros e iters i t s DE I T NB SN SD P C PP. destruct CO as (N & D & _). destruct (DE i I) as (_ & _ & _ & _ & _ & KN & DL). unfold compute_gbest. rewrite T. destruct tk.
  - apply star_outcome; auto.
  - destruct SU as (K & p & k & EP & EK & K2). assert (A : ga_p (gbest_args c) = Some p /\ ga_k (gbest_args c) = Some k) by (unfold gbest_args; destruct (c_kind c); try congruence; cbn [ga_p ga_k]; rewrite EP, EK; auto).
    destruct A as [-> ->]. apply ring_outcome; auto; [congruence|lia|]. apply KN; auto. lia.
  - destruct SU as (K & p & r & EP & ER & R1 & DN). assert (A : ga_p (gbest_args c) = Some p /\ ga_r (gbest_args c) = Some r) by (unfold gbest_args; rewrite K; cbn [ga_p ga_r]; rewrite EP, ER; auto).
    destruct A as [-> ->]. unfold von_neumann_gbest. assert (R0 : (r <? 0)%Z = false) by (apply Z.ltb_ge; lia). rewrite R0, SD. pose proof (delannoy_two d (Z.to_nat r) D ltac:(lia)).
    apply ring_outcome; auto; [congruence|lia|]. rewrite Nat2Z.id. apply KN; auto. lia.
  - unfold pyramid_gbest. destruct (Nat.ltb (s_n s) (s_d s + 1)).
    + assert (NE : s_pbest_cost s <> []) by (intros Z; rewrite Z in C; cbn in C; lia). destruct (np_min_ok _ NE) as (m & M). destruct (np_argmin_ok _ NE) as (j & J). pose proof (np_argmin_lt _ _ J) as LJ.
      destruct (nth_error_ex (s_pbest_pos s) j) as (p & Q); [destruct PP; ftypes; lia|]. ftypes. rewrite J. cbn [bind]. rewrite Q. cbn [of_option bind]. rewrite M. cbn [bind].
      assert (U : usable n d (BPVec (N := F64num) p)) by (apply usable_vec; eapply row_len; eauto). exists (set_nb t (complete_nb (s_n s))), (BPVec (N := F64num) p), m, true. split; [reflexivity|]. split; [reflexivity|].
      split; [intros _ nb E; cbn in E; injection E as <-; split; [rewrite SN; apply complete_hoods; exact N|reflexivity]|]. split; [left; auto|]. intros Z. congruence.
    + destruct (DL eq_refl _ P) as (rows & Q & H). rewrite Q. destruct (needs_neighbors t) eqn:NN.
      * apply hood_outcome; auto; [congruence|]. intros _ nb E. cbn in E. injection E as <-. split; [exact H|reflexivity].
      * unfold needs_neighbors in NN. destruct (t_nb t) as [nb|] eqn:E; [|destruct (t_static t); discriminate]. destruct (NB ltac:(congruence) nb E) as [H1 H2]. apply hood_outcome; auto. congruence.
  - destruct SU as (K & k & EK & K2). assert (A : ga_k (gbest_args c) = Some k) by (unfold gbest_args; destruct (c_kind c); try congruence; cbn [ga_p ga_k]; rewrite EK; auto).
    rewrite A. unfold random_gbest. rewrite SN. destruct (random_adj_total n k (te_choice (e_top e i)) K2) as (adj & Q). rewrite Q. pose proof (random_hoods _ _ _ _ Q) as H. destruct (needs_neighbors t) eqn:NN.
      * apply hood_outcome; auto; [congruence|]. intros _ nb E. cbn in E. injection E as <-. split; [exact H|reflexivity].
      * unfold needs_neighbors in NN. destruct (t_nb t) as [nb|] eqn:E; [|destruct (t_static t); discriminate]. destruct (NB ltac:(congruence) nb E) as [H1 H2]. apply hood_outcome; auto. congruence.
Qed.

(** *** Invariants *)
Definition Calm (o : ostate) : Prop := shaped n d (o_swarm o) /\ s_n (o_swarm o) = n /\ s_d (o_swarm o) = d /\ t_kind (o_top o) = tk /\ nb_ok n (o_top o) /\
  (forall k, In k ["c1"; "c2"; "w"] -> dget (s_options (o_swarm o)) k <> None).
Definition Good (o : ostate) : Prop := s_best_np (o_swarm o) = true /\ usable n d (s_best_pos (o_swarm o)).
Definition Blank (o : ostate) : Prop := s_best_pos (o_swarm o) = BPEmpty /\ s_best_cost (o_swarm o) = finf.
Definition Fine (o : ostate) : Prop := Good o \/ (tk = Star /\ Blank o).
Definition Memo (o : ostate) : Prop := length (s_pbest_cost (o_swarm o)) = n /\ (exists m, o_vmem o = Some m /\ is_matrix n d m) /\ (c_kind c <> Binary -> exists m, o_bmem o = Some m /\ is_matrix n d m).

Lemma pbest_total : forall (s : fswarm), is_matrix n d (s_position s) -> is_matrix n d (s_pbest_pos s) -> length (s_current_cost s) = n -> length (s_pbest_cost s) = n -> exists pp pc, compute_pbest s = Ok (pp, pc).
Proof.
  intros s P Q L1 L2. unfold compute_pbest. ftypes. rewrite L1, L2, Nat.eqb_refl. cbn [negb]. rewrite map2_length. ftypes. rewrite L1, L2, Nat.min_id. destruct P as [P1 P2]. ftypes. rewrite P1, Nat.eqb_refl. cbn [andb].
  assert (E : same_shape (s_position s) (s_pbest_pos s) = true). { apply (is_matrix_same_shape n d); [split; [exact P1|exact P2]|exact Q]. }
  match goal with |- context[if negb ?b then _ else _] => let Z := fresh in assert (Z : b = true) by exact E; rewrite Z; clear Z end. cbn [negb]. do 2 eexists. reflexivity.
Qed.
Lemma pbest_len : forall (s : fswarm) pp pc, compute_pbest s = Ok (pp, pc) -> length pc = length (s_pbest_cost s).
Proof.
  intros s pp pc H. unfold compute_pbest in H. destruct (Nat.eqb_spec (length (s_current_cost s)) (length (s_pbest_cost s))) as [E|E]; [|discriminate]. cbn [negb] in H.
  destruct (negb _); [discriminate|]. injection H as _ <-. rewrite map3_length, map2_length. ftypes. lia.
Qed.
Lemma obj_total : forall e iters i pool (X : fmatrix), answers d e iters -> i < iters -> pool <> Some 0 -> is_matrix n d X -> exists cs, compute_objective_function (N := F64num) pool (e_obj e i) X = Ok cs /\ length cs = n.
Proof.
  intros e iters i pool X A I P [X1 X2]. destruct pool as [[|k]|]; [congruence| |].
  - assert (G : forall bs : list fmatrix, Forall (fun b => Forall (fun r => length r = d) b) bs -> exists rs, mapM (e_obj e i) bs = Ok rs /\ length (concat rs) = length (concat bs)).
    { intros bs F. induction F as [|b bs B F (rs & E & L)]; [exists []; split; reflexivity|]. destruct (A i b I B) as (cs & Q & LQ). exists (cs :: rs). cbn [mapM]. rewrite Q. cbn [bind]. rewrite E. cbn [bind concat].
      split; [reflexivity|]. rewrite !app_length. ftypes. lia. }
    destruct (chunks _ X k) as (CC & _). destruct (G (array_split X (S k))) as (rs & E & L).
    { apply Forall_forall. intros b B. apply Forall_forall. intros r R. rewrite Forall_forall in X2. apply X2. rewrite <- CC. apply in_concat. exists b. auto. }
    exists (concat rs). split; [|exact (eq_trans L (eq_trans (f_equal (@length _) CC) X1))]. unfold compute_objective_function. exact (f_equal (fun z => bind z (fun rs => Ok (concat rs))) E).
  - cbn [compute_objective_function]. destruct (A i X I X2) as (cs & Q & L). exists cs. split; [exact Q|]. ftypes. lia.
Qed.
Lemma pbest_of_inf : forall (s : fswarm) pp pc, compute_pbest s = Ok (pp, pc) -> s_pbest_cost s = repeat finf (length (s_pbest_cost s)) ->
  nonan pc /\ forall v, In v (s_current_cost s) -> flt v finf = true -> In v pc.
Proof.
  intros s pp pc H R. unfold compute_pbest in H. destruct (Nat.eqb_spec (length (s_current_cost s)) (length (s_pbest_cost s))) as [E|E]; [|discriminate]. cbn [negb] in H.
  destruct (negb _); [discriminate|]. injection H as _ <-. rewrite R. rewrite <- E. clear. induction (s_current_cost s) as [|v l [IH1 IH2]]; [split; [constructor|intros v []]|].
  cbn [length repeat map2 map3]. split.
  - constructor; [|exact IH1]. change (nlt v finf) with (flt v finf). destruct (flt v finf) eqn:L; cbn [negb]; [|vm_compute; reflexivity]. destruct (fisnan v) eqn:Z; [|reflexivity]. destruct v; try discriminate Z. discriminate L.
  - intros w [->|W] L; [left; change (nlt w finf) with (flt w finf); ftypes; rewrite L; reflexivity|right; apply IH2; auto].
Qed.
Lemma eval_step : forall e iters pool i o q, delivers c tk e iters -> i < iters -> Calm o -> Memo o -> (tk = Star -> Fine o) ->
  match evaluate_swarm c e pool i o q with
  | Raise o' _ => Calm o' /\ (tk = Star -> Fine o') /\ ~ (answers d e iters /\ pool <> Some 0)
  | Next o' _ | Break o' => Calm o' /\ Memo o' /\ Fine o' /\ (tk = Star -> Good o -> Good o') /\
      (s_pbest_cost (o_swarm o) = repeat finf n -> (exists v cs, compute_objective_function (N := F64num) pool (e_obj e i) (s_position (o_swarm o)) = Ok cs /\ In v cs /\ flt v finf = true) -> Good o')
  end.
Proof.
  intros e iters pool i o q DE I ((P & V & B) & SN & SD & T & NB & OP) (LC & VM & BM) FI. unfold evaluate_swarm.
  destruct (compute_objective_function pool (e_obj e i) (s_position (o_swarm o))) as [cost|x] eqn:OB.
  2:{ split; [exact (conj (conj P (conj V B)) (conj SN (conj SD (conj T (conj NB OP)))))|]. split; [exact FI|]. intros [A PO]. destruct (obj_total e iters i pool _ A I PO P) as (cs & Q & _). ftypes. congruence. }
  cbv zeta. destruct (compute_pbest (set_current_cost (o_swarm o) cost)) as [[pp pc]|x] eqn:PB.
  2:{ split; [exact (conj (conj P (conj V B)) (conj SN (conj SD (conj T (conj NB OP)))))|]. split; [exact FI|]. intros [A PO]. destruct (obj_total e iters i pool _ A I PO P) as (cs & Q & L). ftypes. assert (cs = cost) by congruence. subst cs.
      destruct (pbest_total (set_current_cost (o_swarm o) cost) P B L LC) as (pp & pc & Z). ftypes. congruence. }
  pose proof (pbest_shape n d (set_current_cost (o_swarm o) cost) _ _ P B PB) as PM. pose proof (pbest_len _ _ _ PB) as PL. cbn [s_pbest_cost set_current_cost] in PL.
  set (s2 := set_pbest (set_current_cost (o_swarm o) cost) pp pc).
  destruct (gbest_outcome e iters i (o_top o) s2 DE I T NB SN SD P (eq_trans PL LC) PM) as (t' & bp & bc & np & E & T' & NB' & OUT & ST). rewrite E.
  set (o3 := populate_history _ _ _ _ _ _).
  assert (CA : Calm o3) by (exact (conj (conj P (conj V PM)) (conj SN (conj SD (conj (eq_trans T' T) (conj NB' OP)))))).
  assert (ME : Memo o3) by (exact (conj (eq_trans PL LC) (conj VM BM))).
  assert (FO : Fine o3). { destruct OUT as [[O1 O2]|(O1 & -> & -> & ->)]; [left; split; assumption|]. rewrite T in O1. specialize (FI O1). exact FI. }
  assert (GO : tk = Star -> Good o -> Good o3). { intros S G. destruct OUT as [[O1 O2]|(O1 & -> & -> & ->)]; [split; assumption|exact G]. }
  assert (PR : s_pbest_cost (o_swarm o) = repeat finf n -> (exists v cs, Ok cost = Ok cs /\ In v cs /\ flt v finf = true) -> Good o3).
  { intros R (v & cs & Q & IV & LV). injection Q as <-. assert (TK : tk = Star \/ tk <> Star) by (destruct tk; auto; right; discriminate). destruct TK as [TK|TK]; [|destruct FO as [FO|[FO _]]; [exact FO|contradiction]].
    destruct (pbest_of_inf (set_current_cost (o_swarm o) cost) pp pc PB) as [NN IN]; [cbn [s_pbest_cost set_current_cost]; ftypes; rewrite LC; exact R|].
    destruct (FI TK) as [G|[_ [_ BC]]]; [exact (GO TK G)|]. apply (ST (eq_trans T TK) NN).
    - exists v. split; [exact (IN v IV LV)|]. change (s_best_cost s2) with (s_best_cost (o_swarm o)). rewrite BC. exact LV.
    - change (s_best_cost s2) with (s_best_cost (o_swarm o)). rewrite BC. vm_compute. reflexivity. }
  destruct (Nat.leb _ _ && _); (split; [exact CA|]; split; [exact ME|]; split; [exact FO|]; split; [exact GO|exact PR]).
Qed.
Lemma fits_clamp : forall (m : fmatrix) cl, is_matrix n d m -> c_clamp c = Some cl -> clamp_fit (N := F64num) m cl = true.
Proof. intros m cl (_ & M) E. destruct (CL cl E) as [L1 L2]. unfold clamp_fit. apply forallb_forall. intros r R. rewrite Forall_forall in M. specialize (M r R). ftypes. rewrite M, L1, L2, Nat.eqb_refl. reflexivity. Qed.
Lemma fits_box : forall (m : fmatrix) (b : bounds F64num), is_matrix n d m -> box_dim d b -> bounds_fit (N := F64num) m b = true.
Proof. intros m b (_ & M) [L1 L2]. unfold bounds_fit. ftypes. rewrite L1, L2, Nat.eqb_refl. cbn [andb]. apply forallb_forall. intros r R. rewrite Forall_forall in M. specialize (M r R). ftypes. rewrite M. apply Nat.eqb_refl. Qed.
Lemma clamp_total : forall m : fmatrix, is_matrix n d m -> exists v, maybe_clamp (N := F64num) (c_clamp c) m = Ok v.
Proof. intros m M. assert (Q : c_clamp c = None \/ exists cl, c_clamp c = Some cl) by (clear; destruct (c_clamp c); eauto). destruct Q as [E|(cl & E)]; rewrite E; cbn [maybe_clamp]; [eauto|]. unfold apply_clamp. rewrite (fits_clamp m cl M E). eauto. Qed.
Lemma vh_total : forall (vel x m : fmatrix), is_matrix n d vel -> is_matrix n d x -> is_matrix n d m ->
  exists v m', vh_call (N := F64num) (c_vh c) (c_clamp c) (Some m) (mkVk (Some x) (Some (match c_kind c with Binary => None | _ => c_bounds c end)) None) vel = Ok (v, Some m') /\ is_matrix n d m'.
Proof.
  intros vel x m V X M. destruct CO as (_ & _ & _ & _ & VH & _). destruct VH as [-> |[-> |(VH & KB & BN)]].
  - cbn [vh_call vh_known existsb String.eqb Ascii.eqb Bool.eqb orb negb]. unfold vh_unmodified. destruct (clamp_total vel V) as (v & E). ftypes. rewrite E. cbn [bind]. eauto.
  - cbn [vh_call vh_known existsb String.eqb Ascii.eqb Bool.eqb orb negb vh_adjust vk_position]. assert (S : same_shape x m = true) by (apply (is_matrix_same_shape n d); assumption). match goal with |- context[if negb ?b then _ else _] => let Z := fresh in assert (Z : b = true) by exact S; rewrite Z; clear Z end. cbn [negb].
    assert (MM : is_matrix n d (map2 (map2 (nsub (n := F64num))) x m)). { eapply shape_eq_matrix; [|exact M]. apply map2_shape; [apply shape_eq_iff; exact S|]. intros. rewrite map2_length. lia. }
    destruct (clamp_total _ MM) as (v & E). exists v, x. split; [|exact X]. exact (f_equal (fun z => bind z (fun v => Ok (v, Some x))) E).
  - rewrite (oh_kind c _ _ _ KB). assert (B : exists b, c_bounds c = Some b) by (clear - BN; destruct (c_bounds c); eauto; congruence). destruct B as (b & B). rewrite B. pose proof (fits_box x b X (BX KB b B)) as F.
    assert (S : same_shape vel x = true) by (apply (is_matrix_same_shape n d); assumption).
    assert (G : vk_get (mkVk (N := F64num) (Some x) (Some (Some b)) None) = Ok (x, b)). { unfold vk_get. cbn [vk_position vk_bounds]. rewrite F. reflexivity. }
    destruct VH as [-> | ->]; cbn [vh_call vh_known existsb String.eqb Ascii.eqb Bool.eqb orb negb].
    + unfold vh_invert. rewrite G. cbn [bind]. match goal with |- context[if negb ?b then _ else _] => let Z := fresh in assert (Z : b = true) by exact S; rewrite Z; clear Z end. cbn [negb].
      match goal with |- context[maybe_clamp _ ?w] => set (w0 := w) end.
      assert (MM : is_matrix n d w0). { eapply shape_eq_matrix; [|exact V]. apply map2_shape; [apply shape_eq_sym; apply shape_eq_iff; exact S|]. intros r r' L. unfold invert_row. destruct (row_lower r b), (row_greater r b); rewrite ?map_length; reflexivity. }
      destruct (clamp_total _ MM) as (v & E). exists v, m. split; [|exact M]. exact (f_equal (fun z => bind z (fun v => Ok (v, Some m))) E).
    + unfold vh_zero. rewrite G. cbn [bind]. match goal with |- context[if negb ?b then _ else _] => let Z := fresh in assert (Z : b = true) by exact S; rewrite Z end. cbn [negb bind]. eauto.
Qed.
Lemma shrink_total : forall (b : bounds F64num) (pos m : fmatrix), b_arr b = true -> box_dim d b -> is_matrix n d pos -> is_matrix n d m -> exists p, shrink (N := F64num) (Some m) b pos = Ok p.
Proof.
  intros b pos m A [L1 L2] [P1 P2] [M1 M2]. destruct CO as (_ & D & _). unfold shrink. rewrite A. cbn [negb].
  assert (S : same_shape pos m = true) by (apply (is_matrix_same_shape n d); split; assumption). match goal with |- context[if negb ?b then _ else _] => let Z := fresh in assert (Z : b = true) by exact S; rewrite Z; clear Z end. cbn [negb].
  clear S P1 M1. revert m M2. induction P2 as [|r pos R P2 IH]; intros m M2; [destruct m; cbn; eauto|]. destruct M2 as [|r' m R' M2]; [cbn; eauto|]. cbn [combine mapM fst snd].
  assert (Q : exists y, shrink_row (N := F64num) b r r' = Ok y).
  { unfold shrink_row. destruct (np_min_ok (map4 (sigma_el (N := F64num)) r r' (b_lb b) (b_ub b))) as (y & Y).
    { intros Z. apply (f_equal (@length _)) in Z. rewrite map4_length in Z. cbn [length] in Z. ftypes. lia. }
    ftypes. rewrite Y. cbn [bind]. eauto. }
  destruct Q as (y & Y). rewrite Y. cbn [bind]. destruct (IH m M2) as (p & E). rewrite E. cbn [bind]. eauto.
Qed.
Lemma bh_total : forall e iters i (b : bounds F64num) (pos m : fmatrix), delivers c tk e iters -> i < iters -> c_kind c <> Binary -> c_bounds c = Some b -> is_matrix n d pos -> is_matrix n d m ->
  (exists p m', bh_call (N := F64num) (c_bh c) (e_bh e i) (Some m) b pos = Ok (p, Some m') /\ is_matrix n d m') \/
  (bh_call (N := F64num) (c_bh c) (e_bh e i) (Some m) b pos = Err OutOfFuel /\ c_bh c = "reflective").
Proof.
  intros e iters i b pos m DE I KB B P M. destruct CO as (_ & _ & _ & _ & _ & BH). pose proof (BX KB b B) as BD. pose proof (fits_box pos b P BD) as F. unfold bh_call.
  destruct (BH KB b B) as [[E|[E|[E|[]]]]|[[E|[E|[E|[]]]] A]]; rewrite <- E; cbn [bh_known existsb String.eqb Ascii.eqb Bool.eqb orb negb]; rewrite F; cbn [negb].
  - left. do 2 eexists. split; [reflexivity|exact M].
  - left. destruct (DE i I) as (_ & _ & _ & RD & _). destruct (RD (eq_sym E)) as [R1 R2]. unfold random_bh.
    assert (Q : forallb (fun r : frow => Nat.eqb (length r) (length (bd_greater (e_bh e i))) && Nat.eqb (length r) (length (bd_lower (e_bh e i)))) pos = true).
    { apply forallb_forall. intros r R. destruct P as [_ P]. rewrite Forall_forall in P. specialize (P r R). ftypes. rewrite P, R1, R2, Nat.eqb_refl. reflexivity. }
    match goal with |- context[if negb ?b then _ else _] => let Z := fresh in assert (Z : b = true) by exact Q; rewrite Z end. cbn [negb bind]. do 2 eexists. split; [reflexivity|exact M].
  - left. do 2 eexists. split; [reflexivity|exact M].
  - assert (R : (exists p, reflective (N := F64num) (bd_fuel (e_bh e i)) b pos = Ok p) \/ reflective (N := F64num) (bd_fuel (e_bh e i)) b pos = Err OutOfFuel).
    { unfold reflective. rewrite A. cbn [negb]. rewrite andb_false_r. generalize pos. induction (bd_fuel (e_bh e i)) as [|k IH]; intros x; cbn [reflective_loop]; destruct (any_out x b); eauto. }
    destruct R as [(p & R)|R]; rewrite R; cbn [bind]; [left; exists p, m; auto|right; auto].
  - left. destruct (shrink_total b pos m A BD P M) as (p & Q). rewrite Q. cbn [bind]. exists p, p. split; [reflexivity|]. eapply shape_eq_matrix; [eapply shrink_shape; exact Q|exact P].
  - left. assert (Q : exists p, intermediate (N := F64num) (Some m) b pos = Ok p).
    { unfold intermediate. rewrite A. cbn [negb]. assert (S : same_shape pos m = true) by (apply (is_matrix_same_shape n d); assumption). match goal with |- context[if negb ?b then _ else _] => let Z := fresh in assert (Z : b = true) by exact S; rewrite Z; clear Z end. cbn [negb]. eauto. }
    destruct Q as (p & Q). rewrite Q. cbn [bind]. exists p, p. split; [reflexivity|]. eapply shape_eq_matrix; [eapply intermediate_shape; [exact F|exact Q]|exact P].
Qed.
Lemma options_kept : forall e iters i (o : ostate), delivers c tk e iters -> i < iters -> Calm o ->
  exists opts, match c_kind c with Binary => Ok (s_options (o_swarm o)) | _ => oh_call (e_oh e i) (c_oh c) (c_options c) (mkOk (Some (Z.of_nat i)) (Some (Z.of_nat iters)) None None None None) end = Ok opts /\
    forall k, In k ["c1"; "c2"; "w"] -> dget opts k <> None.
Proof.
  intros e iters i o DE I (_ & _ & _ & _ & _ & OP). destruct CO as (_ & _ & ND & KK & _). assert (D : c_kind c = Binary \/ c_kind c <> Binary) by (clear; destruct (c_kind c); auto; right; discriminate). destruct D as [D|D].
  - rewrite D. exists (s_options (o_swarm o)). split; [reflexivity|exact OP].
  - rewrite (oh_kind c _ _ _ D). destruct (DE i I) as (_ & _ & _ & _ & OV & _). destruct (options_total (N := F64num) _ _ _ _ (OV D)) as (opts & E). exists opts. split; [exact E|].
    destruct (options_varied _ _ _ _ _ ND E) as (KE & _). intros k K. apply dget_In. rewrite KE. apply dget_In. apply KK. exact K.
Qed.
Lemma velocity_total : forall e iters i (s : fswarm) m, delivers c tk e iters -> i < iters -> shaped n d s -> s_d s = d -> (forall k, In k ["c1"; "c2"; "w"] -> dget (s_options s) k <> None) -> is_matrix n d m -> usable n d (s_best_pos s) ->
  exists v m', compute_velocity (N := F64num) (e_vel e i) (c_vh c) (Some m) s (c_clamp c) (match c_kind c with Binary => None | _ => c_bounds c end) = Ok (v, Some m') /\ is_matrix n d m'.
Proof.
  intros e iters i s m DE I (P & V & B) SD OP M (br & BR & BM). destruct (DE i I) as (U1 & U2 & _). unfold compute_velocity.
  assert (NO : forall k, In k ["c1"; "c2"; "w"] -> exists v, num_of (N := F64num) (s_options s) k = Ok v).
  { intros k K. specialize (OP k K). unfold num_of. destruct (dget (s_options s) k); [cbn; eauto|congruence]. }
  destruct (NO "c1") as (c1 & E1); [cbn; auto|]. destruct (NO "c2") as (c2 & E2); [cbn; auto|]. destruct (NO "w") as (w & E3); [cbn; auto|]. rewrite E1, E2, E3. cbn [bind].
  assert (L : length (s_position s) = n) by apply P. ftypes. rewrite L, SD, BR. cbn [bind].
  assert (S1 : same_shape (s_position s) (s_pbest_pos s) && same_shape (s_position s) br && same_shape (s_position s) (s_velocity s) && same_shape (s_position s) (vd_u1 (e_vel e i)) && same_shape (s_position s) (vd_u2 (e_vel e i)) = true).
  { rewrite !andb_true_iff. repeat split; apply (is_matrix_same_shape n d); assumption. }
  match goal with |- context[if negb ?b then _ else _] => let Z := fresh in assert (Z : b = true) by exact S1; rewrite Z; clear Z end. cbn [negb]. rewrite !andb_true_iff in S1. destruct S1 as ((((S1 & S2) & S3) & S4) & S5).
  apply shape_eq_iff in S1, S2, S3, S4, S5. apply vh_total; [|exact P|exact M]. exact (shape_eq_matrix _ _ _ _ (velocity_mat_shape (N := F64num) c1 c2 w _ _ _ _ _ _ S4 S5 S3 S1 S2) P).
Qed.
Lemma update_step : forall e iters i o q, delivers c tk e iters -> i < iters -> Calm o -> Memo o -> Fine o ->
  match update_swarm c e iters i o q with
  | Next o' _ => Calm o' /\ Memo o' /\ Fine o' /\ (Good o -> Good o')
  | Break _ => False
  | Raise o' x => Calm o' /\ Fine o' /\ (Good o -> x = OutOfFuel /\ c_kind c <> Binary /\ c_bounds c <> None /\ c_bh c = "reflective")
  end.
Proof.
  intros e iters i o q DE I CA ME FI. pose proof (update_shaped n d c e iters i o q) as US. unfold update_swarm in US |- *. destruct (options_kept e iters i o DE I CA) as (opts & E & OK). rewrite E in US |- *. cbv zeta in US |- *.
  destruct CA as (SH & SN & SD & T & NB & OP). destruct ME as (LC & (vm & VM & VMM) & BM).
  set (s1 := set_options (o_swarm o) opts) in *. cbn [o_vmem with_swarm] in US |- *. rewrite VM in US |- *.
  assert (CA1 : Calm (with_swarm o s1)) by exact (conj SH (conj SN (conj SD (conj T (conj NB OK))))).
  destruct FI as [GO|[ST [BP BC]]].
  2:{ destruct CO as (_ & D1 & _). destruct (compute_velocity _ _ _ _ _ _) as [[v vmem]|x] eqn:V; [exfalso|].
      - unfold compute_velocity in V. apply bind_Ok in V. destruct V as (a1 & _ & V). apply bind_Ok in V. destruct V as (a2 & _ & V). apply bind_Ok in V. destruct V as (a3 & _ & V). apply bind_Ok in V. destruct V as (a4 & V & _).
        change (s_best_pos s1) with (s_best_pos (o_swarm o)) in V. change (s_d s1) with (s_d (o_swarm o)) in V. rewrite BP, SD in V. cbn [best_rows] in V. destruct d as [|[|k]]; [lia|discriminate|discriminate].
      - split; [exact CA1|]. split; [right; split; [exact ST|split; assumption]|]. intros (_ & br & BR & _). exfalso. rewrite BP in BR. cbn [best_rows] in BR. destruct d as [|[|k]]; [lia|discriminate|discriminate]. }
  destruct (velocity_total e iters i s1 vm DE I SH SD OK VMM (proj2 GO)) as (v & m' & V & MM). ftypes. rewrite V in US |- *.
  set (s2 := set_velocity s1 v) in *. assert (VS : is_matrix n d v) by exact (shape_eq_matrix _ _ _ _ (compute_velocity_shape (N := F64num) _ _ _ _ _ _ _ _ V) (proj1 SH)).
  assert (SH2 : shaped n d s2) by exact (conj (proj1 SH) (conj VS (proj2 (proj2 SH)))).
  assert (D : c_kind c = Binary \/ c_kind c <> Binary) by (clear; destruct (c_kind c); auto; right; discriminate). destruct D as [D|D].
  - rewrite D in US |- *. destruct (DE i I) as (_ & _ & BL & _). specialize (BL D).
    assert (Q : exists p, binary_position (e_exp e) (e_bits e i) (s_velocity s2) = Ok p).
    { unfold binary_position. assert (Z : forallb (fun r : frow => Nat.eqb (length r) (length (e_bits e i))) (s_velocity s2) = true).
      { apply forallb_forall. intros r R. destruct VS as [_ VS]. rewrite Forall_forall in VS. specialize (VS r R). ftypes. rewrite VS, BL. apply Nat.eqb_refl. }
      ftypes. rewrite Z. eauto. }
    destruct Q as (p & Q). rewrite Q in US |- *. specialize (US _ _ SH eq_refl).
    split; [exact (conj US (conj SN (conj SD (conj T (conj NB OK)))))|]. split; [split; [exact LC|split; [exists m'; split; [reflexivity|exact MM]|intros Z; congruence]]|]. split; [left; exact GO|intros _; exact GO].
  - destruct (BM D) as (bm & BE & BMM). rewrite (oh_kind c _ _ _ D) in US |- *.
    assert (Q : (exists p m2, compute_position (N := F64num) (e_bh e i) (c_bh c) (Some bm) s2 (c_bounds c) = Ok (p, Some m2) /\ is_matrix n d m2) \/
                (compute_position (N := F64num) (e_bh e i) (c_bh c) (Some bm) s2 (c_bounds c) = Err OutOfFuel /\ c_bounds c <> None /\ c_bh c = "reflective")).
    { unfold compute_position. assert (S : same_shape (s_position s2) (s_velocity s2) = true) by (apply (is_matrix_same_shape n d); [apply SH2|apply SH2]). match goal with |- context[if negb ?b then _ else _] => let Z := fresh in assert (Z : b = true) by exact S; rewrite Z; clear Z end. cbn [negb].
      assert (PM : is_matrix n d (map2 (map2 (nadd (n := F64num))) (s_position s2) (s_velocity s2))). { eapply shape_eq_matrix; [|exact VS]. apply map2_shape; [apply shape_eq_iff; exact S|]. intros. rewrite map2_length. ftypes. lia. }
      assert (BO : c_bounds c = None \/ exists b, c_bounds c = Some b) by (clear; destruct (c_bounds c); eauto). destruct BO as [BO|(b & BO)]; rewrite BO.
      - left. do 2 eexists. split; [reflexivity|exact BMM].
      - destruct (bh_total e iters i b _ bm DE I D BO PM BMM) as [(p & m2 & Q & M2)|[Q R]]; [left; exists p, m2; split; [exact Q|exact M2]|right; split; [exact Q|split; [congruence|exact R]]]. }
    cbn [o_bmem with_vmem with_swarm] in US |- *. rewrite BE in US |- *. destruct Q as [(p & m2 & Q & M2)|(Q & BO & R)].
    + ftypes. rewrite Q in US |- *. specialize (US _ _ SH eq_refl). split; [exact (conj US (conj SN (conj SD (conj T (conj NB OK)))))|].
      split; [split; [exact LC|split; [exists m'; split; [reflexivity|exact MM]|intros _; exists m2; split; [reflexivity|exact M2]]]|]. split; [left; exact GO|intros _; exact GO].
    + ftypes. rewrite Q. split; [exact (conj SH2 (conj SN (conj SD (conj T (conj NB OK)))))|]. split; [left; exact GO|]. auto.
Qed.
Definition Stuck (x : exn) : Prop := x = OutOfFuel /\ c_kind c <> Binary /\ c_bounds c <> None /\ c_bh c = "reflective".
Lemma loop_any : forall e pool iters, delivers c tk e iters -> forall m i o q, m + i <= iters -> Calm o -> Memo o -> (tk = Star -> Fine o) ->
  match opt_loop c e pool iters m i o q with LDone o' | LRaise o' _ => Calm o' /\ (tk = Star -> Fine o') end.
Proof.
  intros e pool iters DE. induction m as [|m IH]; intros i o q L CA ME FI; cbn [opt_loop]; [auto|]. unfold iteration. pose proof (eval_step e iters pool i o q DE ltac:(lia) CA ME FI) as EV.
  destruct (evaluate_swarm c e pool i o q) as [o1 q1|o1|o1 x]; [|destruct EV as (E1 & E2 & E3 & _); auto|destruct EV as (E1 & E2 & _); auto].
  destruct EV as (E1 & E2 & E3 & _). pose proof (update_step e iters i o1 q1 DE ltac:(lia) E1 E2 E3) as UP. destruct (update_swarm c e iters i o1 q1) as [o2 q2|o2|o2 x].
  - destruct UP as (U1 & U2 & U3 & _). apply IH; auto. lia.
  - destruct UP.
  - destruct UP as (U1 & U2 & _). auto.
Qed.
Lemma loop_good : forall e pool iters, delivers c tk e iters -> answers d e iters -> pool <> Some 0 -> forall m i o q, m + i <= iters -> Calm o -> Memo o -> Good o ->
  match opt_loop c e pool iters m i o q with LDone o' => Calm o' /\ Memo o' /\ Good o' | LRaise _ x => Stuck x end.
Proof.
  intros e pool iters DE AN PO. induction m as [|m IH]; intros i o q L CA ME GO; cbn [opt_loop]; [auto|]. unfold iteration. pose proof (eval_step e iters pool i o q DE ltac:(lia) CA ME (fun _ => or_introl GO)) as EV.
  assert (ND : forall o', Fine o' -> (tk = Star -> Good o -> Good o') -> Good o') by (intros o' [F|[F _]] G; auto).
  destruct (evaluate_swarm c e pool i o q) as [o1 q1|o1|o1 x]; [| |destruct EV as (_ & _ & EV); destruct (EV (conj AN PO))]; destruct EV as (E1 & E2 & E3 & E4 & _); specialize (ND o1 E3 E4); [|auto].
  pose proof (update_step e iters i o1 q1 DE ltac:(lia) E1 E2 E3) as UP. destruct (update_swarm c e iters i o1 q1) as [o2 q2|o2|o2 x].
  - destruct UP as (U1 & U2 & U3 & U4). apply IH; auto. lia.
  - destruct UP.
  - destruct UP as (_ & _ & U). exact (U ND).
Qed.
Lemma loop_first : forall e pool iters o, delivers c tk e iters -> answers d e iters -> pool <> Some 0 -> 1 <= iters -> Calm o -> Memo o -> (tk = Star -> Fine o) -> s_pbest_cost (o_swarm o) = repeat finf n ->
  (tk = Star -> Good o \/ promising e pool o) ->
  match opt_loop c e pool iters iters 0 o [] with LDone o' => Calm o' /\ Memo o' /\ Good o' | LRaise _ x => Stuck x end.
Proof.
  intros e pool iters o DE AN PO I1 CA ME FI PB PR.
  assert (G : forall m, 1 <= m <= iters -> match opt_loop c e pool iters m 0 o [] with LDone o' => Calm o' /\ Memo o' /\ Good o' | LRaise _ x => Stuck x end); [|apply G; lia].
  intros [|m] M; [lia|]. cbn [opt_loop]. unfold iteration. pose proof (eval_step e iters pool 0 o [] DE ltac:(lia) CA ME FI) as EV.
  assert (OB : exists cs, compute_objective_function (N := F64num) pool (e_obj e 0) (s_position (o_swarm o)) = Ok cs) by (destruct (obj_total e iters 0 pool _ AN ltac:(lia) PO (proj1 (proj1 CA))) as (cs & Q & _); eauto).
  assert (ND : forall o', Fine o' -> (tk = Star -> Good o -> Good o') ->
    (s_pbest_cost (o_swarm o) = repeat finf n -> (exists v cs, compute_objective_function (N := F64num) pool (e_obj e 0) (s_position (o_swarm o)) = Ok cs /\ In v cs /\ flt v finf = true) -> Good o') -> Good o').
  { intros o' [F|[F _]] G P; [exact F|]. destruct (PR F) as [Q|Q]; [exact (G F Q)|]. apply (P PB). destruct OB as (cs & OB). destruct (Q cs OB) as (v & V1 & V2). exists v, cs. auto. }
  destruct (evaluate_swarm c e pool 0 o []) as [o1 q1|o1|o1 x]; [| |destruct EV as (_ & _ & EV); destruct (EV (conj AN PO))]; destruct EV as (E1 & E2 & E3 & E4 & E5); specialize (ND o1 E3 E4 E5); [|auto].
  pose proof (update_step e iters 0 o1 q1 DE ltac:(lia) E1 E2 E3) as UP. destruct (update_swarm c e iters 0 o1 q1) as [o2 q2|o2|o2 x].
  - destruct UP as (U1 & U2 & U3 & U4). apply loop_good; auto. lia.
  - destruct UP.
  - destruct UP as (_ & _ & U). exact (U ND).
Qed.
Lemma started_calm : forall o, Calm o -> Calm (started c o) /\ Memo (started c o).
Proof.
  intros o (SH & SN & SD & T & NB & OP). destruct (started_facts c o) as (F1 & _ & _ & _ & _ & _ & F7 & F8 & F9). unfold Calm, Memo. rewrite F1, F7, F8. split; [exact (conj SH (conj SN (conj SD (conj T (conj NB OP)))))|].
  split; [apply repeat_length|]. split; [eexists; split; [reflexivity|apply SH]|]. intros K. rewrite F9. exists (s_position (o_swarm o)). split; [apply oh_kind; exact K|apply SH].
Qed.
Lemma started_fine : forall o, Fine o -> Fine (started c o).
Proof. intros o F. unfold Fine, Good, Blank in *. destruct (started_facts c o) as (_ & _ & _ & _ & _ & _ & F7 & _). rewrite F7. exact F. Qed.
Lemma optimize_any : forall e pool iters o, delivers c tk e iters -> Calm o -> (tk = Star -> Fine o) -> Calm (fst (optimize c e pool iters o)) /\ (tk = Star -> Fine (fst (optimize c e pool iters o))).
Proof.
  intros e pool iters o DE CA FI. unfold optimize. fold (started c o). destruct (started_calm o CA) as [CS MS].
  assert (SM : Calm (start_memory c o) /\ (tk = Star -> Fine (start_memory c o))). { unfold start_memory, Calm, Fine, Good, Blank in *. destruct (c_kind c); split; assumption. }
  pose proof (loop_any e pool iters DE iters 0 (started c o) [] ltac:(lia) CS MS (fun S => started_fine o (FI S))) as LO.
  destruct pool as [[|k]|]; [exact SM| |]; destruct (opt_loop _ _ _ _ _ _ _ _) as [o'|o' x]; exact LO.
Qed.
Lemma served_any : forall l o, Forall (fun q => delivers c tk (q_env q) (q_iters q)) l -> Calm o -> (tk = Star -> Fine o) -> Calm (served c l o) /\ (tk = Star -> Fine (served c l o)).
Proof.
  induction l as [|q l IH]; intros o F CA FI; cbn [served]; [auto|]. inversion F; subst. destruct (optimize_any (q_env q) (q_pool q) (q_iters q) o H1 CA FI). apply IH; auto.
Qed.
Lemma result_total : forall o, Calm o -> Memo o -> Good o -> exists v, final_result o = Ok v.
Proof.
  intros o (SH & _) (L & _) (NP & _). destruct CO as (N1 & _). unfold final_result. rewrite NP. cbn [negb].
  assert (NE : s_pbest_cost (o_swarm o) <> []) by (intros Z; rewrite Z in L; cbn in L; lia). destruct (np_argmin_ok _ NE) as (j & J). pose proof (np_argmin_lt _ _ J) as LJ. destruct SH as (_ & _ & [B _]).
  destruct (nth_error_ex (s_pbest_pos (o_swarm o)) j) as (p & P); [ftypes; lia|]. ftypes. rewrite J. cbn [bind]. rewrite P. cbn [of_option bind]. eauto.
Qed.
Lemma optimize_good : forall e pool iters o, delivers c tk e iters -> answers d e iters -> pool <> Some 0 -> 1 <= iters -> Calm o -> (tk = Star -> Fine o) -> (tk = Star -> s_best_pos (o_swarm o) = BPEmpty -> promising e pool o) ->
  (exists v, snd (optimize c e pool iters o) = Ok v) \/ exists x, snd (optimize c e pool iters o) = Err x /\ Stuck x.
Proof.
  intros e pool iters o DE AN PO I1 CA FI PR. unfold optimize. fold (started c o). destruct (started_calm o CA) as [CS MS]. destruct (started_facts c o) as (_ & _ & _ & _ & _ & _ & F7 & _).
  assert (PB : s_pbest_cost (o_swarm (started c o)) = repeat finf n) by (rewrite F7; reflexivity).
  assert (PS : tk = Star -> Good (started c o) \/ promising e pool (started c o)).
  { intros S. unfold Good, promising. rewrite F7. cbn [s_best_np s_best_pos s_position set_pbest_cost set_pbest]. destruct (FI S) as [G|[_ [B _]]]; [left; exact G|right; exact (PR S B)]. }
  pose proof (loop_first e pool iters (started c o) DE AN PO I1 CS MS (fun S => started_fine o (FI S)) PB PS) as LO.
  destruct pool as [[|k]|]; [congruence| |]; (destruct (opt_loop _ _ _ _ _ _ _ _) as [o'|o' x]; cbn [snd]; [left; destruct LO as (L1 & L2 & L3); exact (result_total o' L1 L2 L3)|right; exists x; split; [reflexivity|exact LO]]).
Qed.
End Safe.

Lemma built_clamp : forall c dr s, make_swarm c dr = Ok s -> forall cl, c_clamp c = Some cl -> length (fst cl) = c_d c /\ length (snd cl) = c_d c.
Proof.
  intros c dr s M. assert (G : okay (generate_velocity (c_d c) (c_clamp c) (cd_vel dr))).
  { unfold make_swarm in M. destruct (c_kind c); (eapply proj2; eapply create_okay; eexists; exact M). }
  exact (proj1 (velocity_okay _ _ _) G).
Qed.
Lemma built_box : forall c top dr o, construct c top dr = Ok o -> 1 <= c_n c -> (forall p, c_init c = Some p -> is_matrix (c_n c) (c_d c) p) -> c_kind c <> Binary -> forall b, c_bounds c = Some b -> box_dim (c_d c) b.
Proof.
  intros c top dr o C N SI K b B. assert (A : accepts c) by (apply (proj1 (accepted c top dr ltac:(congruence))); eauto). destruct A as (_ & _ & _ & _ & A5 & A6 & _).
  destruct (c_init c) as [p|] eqn:I.
  - destruct (A5 K b p B eq_refl) as (L & F & _). destruct (SI p eq_refl) as [P1 P2]. destruct p as [|r p]; [cbn in P1; ftypes; lia|]. inversion F; subst. inversion P2; subst. split; ftypes; congruence.
  - destruct (A6 K b B eq_refl) as [A _]. exact A.
Qed.
Lemma safe_start : forall c top dr o, construct c top dr = Ok o -> t_nb top = None -> shaped_draws (c_n c) (c_d c) dr -> (forall p, c_init c = Some p -> is_matrix (c_n c) (c_d c) p) -> consistent c ->
  Calm c (t_kind top) o /\ (t_kind top = Star -> Fine c (t_kind top) o).
Proof.
  intros c top dr o C NB SD SI (N & D & ND & KK & _). destruct (construct_inv _ _ _ _ C) as (s & M & EO & _). destruct (fresh_shaped c top dr o SD SI (or_introl C)) as (S & SN & SDM).
  destruct (Fresh_inv _ _ (Fresh_construct _ _ _ _ C)) as (dim & p & v & E & _). split.
  - split; [exact S|]. split; [exact SN|]. split; [exact SDM|]. split; [rewrite EO; reflexivity|]. split; [intros _ nb Q; rewrite EO in Q; cbn in Q; congruence|]. rewrite E. exact KK.
  - intros T. right. split; [exact T|]. unfold Blank. rewrite E. split; reflexivity.
Qed.
Lemma never_raises : forall c top dr o l e pool iters, construct c top dr = Ok o -> t_nb top = None -> shaped_draws (c_n c) (c_d c) dr -> (forall p, c_init c = Some p -> is_matrix (c_n c) (c_d c) p) ->
  consistent c -> suits c (t_kind top) -> (t_kind top = Star -> l = [] \/ 2 <= c_d c) -> Forall (fun q => delivers c (t_kind top) (q_env q) (q_iters q)) l ->
  delivers c (t_kind top) e iters -> answers (c_d c) e iters -> pool <> Some 0 -> 1 <= iters ->
  (t_kind top = Star -> s_best_pos (o_swarm (served c l o)) = BPEmpty -> promising e pool (served c l o)) ->
  (exists v, snd (optimize c e pool iters (served c l o)) = Ok v) \/
  (endless (snd (optimize c e pool iters (served c l o))) /\ c_kind c <> Binary /\ c_bounds c <> None /\ c_bh c = "reflective").
Proof.
  intros c top dr o l e pool iters C NB SD SI CO SU _ FL DE AN PO I1 PR. destruct (safe_start c top dr o C NB SD SI CO) as [CA FI]. destruct (construct_inv _ _ _ _ C) as (s & M & _).
  pose proof (built_clamp c dr s M) as CL. pose proof (built_box c top dr o C (proj1 CO) SI) as BX. destruct (served_any c (t_kind top) CO SU CL BX l o FL CA FI) as [CA' FI'].
  destruct (optimize_good c (t_kind top) CO SU CL BX e pool iters _ DE AN PO I1 CA' FI' PR) as [G|(x & E & -> & G)]; [left; exact G|right; split; [exact E|exact G]].
Qed.
