(** Proofs of C91. *)
From Coq Require Import String ZArith List Arith Bool Lia.
From Verif Require Import Prelude ListFacts F64 F64Facts Num Np NpFacts Handlers Swarms Operators Generators Topology Optimizers Broadcast Axes Spec SpecHandlers SpecRun SpecBroadcast SpecAxes
  RunFacts PbestFacts RunMain RunMisc BroadcastFacts.
Import ListNotations.
Local Open Scope list_scope.

Lemma rev_case : forall a b, (exists r, broadcast_rev a b = Ok r /\ length r = Nat.max (length a) (length b) /\
    forall j, nth j r 1 = (if Nat.eqb (nth j a 1) 1 then nth j b 1 else nth j a 1) /\ (nth j a 1 = nth j b 1 \/ nth j a 1 = 1 \/ nth j b 1 = 1)) \/
  (broadcast_rev a b = Err ValueError /\ exists j, nth j a 1 <> nth j b 1 /\ nth j a 1 <> 1 /\ nth j b 1 <> 1).
Proof.
  induction a as [|x a IH]; intros b.
  - left. exists b. split; [reflexivity|]. split; [reflexivity|]. intros j. replace (nth j [] 1) with 1 by (destruct j; reflexivity). cbn [Nat.eqb]. auto.
  - destruct b as [|y b].
    + left. exists (x :: a). split; [reflexivity|]. split; [cbn [length]; lia|]. intros j. replace (nth j [] 1) with 1 by (destruct j; reflexivity).
      destruct (Nat.eqb (nth j (x :: a) 1) 1) eqn:E; [apply Nat.eqb_eq in E; rewrite E|]; auto.
    + cbn [broadcast_rev]. destruct (IH b) as [(r & -> & L & N)|(-> & j & J)]; cbn [bind].
      * assert (Q : forall z, z = (if Nat.eqb x 1 then y else x) -> (x = y \/ x = 1 \/ y = 1) ->
          exists r0, Ok (z :: r) = Ok r0 /\ length r0 = Nat.max (length (x :: a)) (length (y :: b)) /\
          forall j, nth j r0 1 = (if Nat.eqb (nth j (x :: a) 1) 1 then nth j (y :: b) 1 else nth j (x :: a) 1) /\ (nth j (x :: a) 1 = nth j (y :: b) 1 \/ nth j (x :: a) 1 = 1 \/ nth j (y :: b) 1 = 1)).
        { intros z Z H. exists (z :: r). split; [reflexivity|]. split; [cbn [length]; lia|]. intros [|j]; [split; [exact Z|exact H]|exact (N j)]. }
        destruct (Nat.eqb x y) eqn:E; [apply Nat.eqb_eq in E; left; apply Q; [destruct (Nat.eqb x 1); congruence|auto]|]. apply Nat.eqb_neq in E.
        destruct (Nat.eqb x 1) eqn:E1; [apply Nat.eqb_eq in E1; left; apply Q; auto|]. apply Nat.eqb_neq in E1.
        destruct (Nat.eqb y 1) eqn:E2; [apply Nat.eqb_eq in E2; left; apply Q; auto|]. apply Nat.eqb_neq in E2.
        right. split; [reflexivity|]. exists 0. cbn [nth]. auto.
      * right. split; [reflexivity|]. exists (S j). exact J.
Qed.
Lemma broadcast_spec : forall a b, (fits a b -> exists r, broadcast a b = Ok r /\ combined a b r) /\ (~ fits a b -> broadcast a b = Err ValueError).
Proof.
  intros a b. unfold broadcast, fits, combined, axis. destruct (rev_case (rev a) (rev b)) as [(r & -> & L & N)|(-> & j & J)]; cbn [bind].
  - split; [|intros H; exfalso; apply H; intros j; apply N]. intros _. exists (rev r). split; [reflexivity|]. rewrite rev_length. rewrite !rev_length in L. split; [exact L|]. intros j. rewrite rev_involutive. apply N.
  - split; [|reflexivity]. intros H. specialize (H j). tauto.
Qed.
Lemma broadcast_last : forall a b x y, x <> y -> x <> 1 -> y <> 1 -> broadcast (a ++ [x]) (b ++ [y]) = Err ValueError.
Proof. intros a b x y H X Y. apply broadcast_spec. intros F. specialize (F 0). unfold axis in F. rewrite !rev_unit in F. cbn [nth] in F. tauto. Qed.
Lemma broadcast_same : forall n d, broadcast [n; d] [n; d] = Ok [n; d].
Proof. intros n d. unfold broadcast. cbn [rev app broadcast_rev bind]. rewrite !Nat.eqb_refl. reflexivity. Qed.
Lemma shapes_raise : forall n d cost, 2 <= n -> 2 <= d -> n <> d -> 2 <= length cost -> pbest_shapes d cost [n] [n; d] [n; d] = Err ValueError.
Proof.
  intros n d cost N D ND L. unfold pbest_shapes. rewrite broadcast_same.
  assert (M : broadcast cost [n] = Err ValueError \/ exists m w, broadcast cost [n] = Ok (m :: w ++ [n])).
  { unfold broadcast. rewrite <- (rev_involutive cost) in L. rewrite rev_length in L. destruct (rev cost) as [|z [|y zs]]; cbn [length] in L; [lia|lia|]. cbn [rev app broadcast_rev bind].
    assert (R : exists m w, rev (y :: zs) = m :: w). { destruct (rev (y :: zs)) as [|m w] eqn:R; [|eauto]. apply (f_equal (@length nat)) in R. rewrite rev_length in R. discriminate. }
    destruct R as (m & w & R). cbn [rev] in R.
    destruct (Nat.eqb z n) eqn:E; [apply Nat.eqb_eq in E; subst z; right; exists m, w; cbn [bind rev]; rewrite R; reflexivity|].
    destruct (Nat.eqb z 1) eqn:E1; [right; exists m, w; cbn [bind rev]; rewrite R; reflexivity|].
    destruct (Nat.eqb n 1) eqn:E2; [apply Nat.eqb_eq in E2; lia|]. left. reflexivity. }
  destruct M as [->|(m & w & ->)]; [reflexivity|]. cbn [bind]. change (m :: d :: w ++ [n]) with ((m :: d :: w) ++ [n]). change [n; d] with ([n] ++ [d]). rewrite (broadcast_last (m :: d :: w) [n] n d) by lia. reflexivity.
Qed.
Lemma shapes_square : forall n, 2 <= n -> pbest_shapes n [n; 1] [n] [n; n] [n; n] = Ok ([n; n; n], [n; n]) /\ pbest_shapes 1 [n; 1] [n] [n; 1] [n; 1] = Ok ([n; n; n], [n; n]).
Proof.
  intros n N. unfold pbest_shapes, broadcast. cbn [rev app broadcast_rev bind].
  assert (E1 : Nat.eqb n 1 = false) by (apply Nat.eqb_neq; lia). assert (E2 : Nat.eqb 1 n = false) by (apply Nat.eqb_neq; lia).
  rewrite !E2. rewrite !Nat.eqb_refl. cbn [bind rev app broadcast_rev]. rewrite ?E1, ?E2, ?Nat.eqb_refl. cbn [bind rev app broadcast_rev]. rewrite ?E1, ?E2, ?Nat.eqb_refl. cbn [bind rev app broadcast_rev]. rewrite ?E1, ?E2, ?Nat.eqb_refl. split; reflexivity.
Qed.
Lemma matrix_shape_is : forall n d (m : fmatrix), 1 <= n -> is_matrix n d m -> matrix_shape m = [n; d].
Proof. intros n d m N [L F]. unfold matrix_shape. destruct m as [|r m]; [cbn in L; lia|]. inversion F; subst. cbn [hd]. reflexivity. Qed.
Lemma mapM_all : forall (P : ndarray -> Prop) (f : fmatrix -> res ndarray) l, (forall X, exists a, f X = Ok a /\ P a) -> exists rs, mapM f l = Ok rs /\ Forall P rs.
Proof.
  intros P f l F. induction l as [|X l (rs & IH & Q)]; [exists []; split; [reflexivity|constructor]|]. destruct (F X) as (a & E & PA). exists (a :: rs). cbn [mapM]. rewrite E. cbn [bind]. rewrite IH. split; [reflexivity|constructor; assumption].
Qed.
Lemma objective_axes : forall pool f X, (forall Y, exists a, f Y = Ok a /\ 2 <= length (a_shape a)) ->
  objective_array pool f X = Err ValueError \/ exists a, objective_array pool f X = Ok a /\ 2 <= length (a_shape a).
Proof.
  intros pool f X F. destruct pool as [k|]; [|right; exact (F X)]. unfold objective_array. destruct (mapM_all (fun a => 2 <= length (a_shape a)) f (array_split X k) F) as (rs & -> & Q). cbn [bind]. unfold np_concatenate.
  destruct rs as [|a rs]; [left; reflexivity|]. apply Forall_inv in Q. destruct (a_shape a) as [|h rest]; [left; reflexivity|]. destruct (forallb _ _); [|left; reflexivity]. right. eexists. split; [reflexivity|]. exact Q.
Qed.
Lemma axes_raise : forall c e f pool iters o, 2 <= c_n c -> 2 <= c_d c -> c_n c <> c_d c -> pool <> Some 0 -> 1 <= iters -> shaped (c_n c) (c_d c) (o_swarm o) -> s_d (o_swarm o) = c_d c ->
  (forall X, exists a, f 0 X = Ok a /\ 2 <= length (a_shape a)) ->
  snd (optimize_array c e f pool iters o) = Err ValueError /\ untouched (fst (optimize_array c e f pool iters o)) o.
Proof.
  intros c e f pool iters o N D ND P I SH SD F. destruct iters as [|m]; [lia|]. destruct SH as (SP & _ & SB).
  destruct (started_facts c o) as (S1 & S2 & S3 & S4 & S5 & S6 & S7 & _). unfold started in *.
  assert (Q : exists cs, evaluate_array c e f pool 0 (start_pbest c (start_memory c o)) [] = Raise (with_swarm (start_pbest c (start_memory c o)) (set_current_cost (o_swarm (start_pbest c (start_memory c o))) cs)) ValueError).
  { unfold evaluate_array. cbv zeta. rewrite S7. change (s_position (set_pbest_cost (o_swarm o) (repeat finf (c_n c)))) with (s_position (o_swarm o)).
    destruct (objective_axes pool (f 0) (s_position (o_swarm o)) F) as [H|(a & H & L)]; rewrite H.
    - exists (s_current_cost (o_swarm (start_pbest c (start_memory c o)))). f_equal. rewrite <- S7. apply sc_self.
    - exists (a_entries a).
      assert (W : compute_pbest_array (a_shape a) (set_current_cost (set_pbest_cost (o_swarm o) (repeat finf (c_n c))) (a_entries a)) = Err ValueError).
      { unfold compute_pbest_array. cbn [s_d s_pbest_cost s_pbest_pos s_position set_current_cost set_pbest_cost set_pbest]. rewrite repeat_length, SD. rewrite (matrix_shape_is (c_n c) (c_d c) (s_pbest_pos (o_swarm o)) ltac:(lia) SB), (matrix_shape_is (c_n c) (c_d c) (s_position (o_swarm o)) ltac:(lia) SP).
        pose proof (shapes_raise (c_n c) (c_d c) (a_shape a) N D ND L) as R. destruct (a_shape a) as [|h [|h2 r]]; cbn [length] in L; [lia|lia|]. rewrite R. reflexivity. }
      rewrite W. reflexivity. }
  destruct Q as (cs & Q).
  assert (G : optimize_array c e f pool (S m) o = (with_swarm (start_pbest c (start_memory c o)) (set_current_cost (o_swarm (start_pbest c (start_memory c o))) cs), Err ValueError)).
  { unfold optimize_array. cbn [loop_array]. rewrite Q. destruct pool as [[|k]|]; [congruence|reflexivity|reflexivity]. }
  rewrite G. split; [reflexivity|]. cbn [fst]. unfold untouched. cbn [o_swarm with_swarm o_top o_cost_history o_mean_pbest_history o_mean_neighbor_history o_pos_history o_velocity_history].
  rewrite S7, S1, S2, S3, S4, S5, S6. repeat split.
Qed.
Lemma broadcast_one : forall m n, broadcast [m] [n] = if Nat.eqb m n then Ok [m] else if Nat.eqb m 1 then Ok [n] else if Nat.eqb n 1 then Ok [m] else Err ValueError.
Proof. intros m n. unfold broadcast. cbn [rev app broadcast_rev bind]. destruct (Nat.eqb m n); [reflexivity|]. destruct (Nat.eqb m 1); [reflexivity|]. destruct (Nat.eqb n 1); reflexivity. Qed.
Lemma select_matrix : forall (mask : list bool) (a b : fmatrix) n d, length mask = n -> is_matrix n d a -> is_matrix n d b -> is_matrix n d (map3 (fun (m : bool) o p => if negb m then o else p) mask a b).
Proof.
  intros mask a b n d <-. revert a b. induction mask as [|m mask IH]; intros a b [LA FA] [LB FB]; [split; [reflexivity|constructor]|].
  destruct a as [|x a]; [discriminate|]. destruct b as [|y b]; [discriminate|]. cbn [length] in LA, LB. pose proof (Forall_inv FA) as A1. pose proof (Forall_inv FB) as B1. cbn beta in A1, B1.
  destruct (IH a b) as [L F]; [split; [lia|exact (Forall_inv_tail FA)]|split; [lia|exact (Forall_inv_tail FB)]|].
  cbn [map3]. split; [cbn [length]; lia|]. constructor; [destruct m; assumption|exact F].
Qed.
Lemma shapes_agree : forall (s : fswarm) n d, 2 <= n -> is_matrix n d (s_position s) -> is_matrix n d (s_pbest_pos s) -> length (s_pbest_cost s) = n ->
  match compute_pbest_given s with
  | Ok (pp, pc) => pbest_shapes d [length (s_current_cost s)] [n] [n; d] [n; d] = Ok (matrix_shape pp, [length pc])
  | Err x => pbest_shapes d [length (s_current_cost s)] [n] [n; d] [n; d] = Err x
  end.
Proof.
  intros s n d N SP SB LC. unfold compute_pbest_given. cbv zeta. ftypes. rewrite LC. replace (Nat.eqb n 1) with false by (symmetry; apply Nat.eqb_neq; lia). cbn [andb].
  assert (OKS : forall cs, length cs = n -> exists pp pc, compute_pbest (set_current_cost s cs) = Ok (pp, pc) /\ matrix_shape pp = [n; d] /\ length pc = n).
  { intros cs L. destruct (compute_pbest (set_current_cost s cs)) as [[pp pc]|x] eqn:E.
    - exists pp, pc. split; [reflexivity|]. destruct (compute_pbest_lengths _ _ _ E) as (_ & _ & _ & L4 & _). split; [|ftypes; rewrite L4; exact LC].
      apply matrix_shape_is; [lia|]. unfold compute_pbest in E. cbv zeta in E. destruct (negb _); [discriminate|]. destruct (negb _) eqn:B; [discriminate|]. injection E as <- _.
      apply select_matrix; [|exact SB|exact SP]. apply negb_false_iff, andb_true_iff in B. destruct B as [B _]. apply Nat.eqb_eq in B. exact (eq_trans B (proj1 SP)).
    - exfalso. unfold compute_pbest in E. cbv zeta in E. cbn [s_current_cost s_pbest_cost s_position s_pbest_pos set_current_cost] in E. ftypes.
      assert (B1 : Nat.eqb (length cs) (length (s_pbest_cost s)) = true) by (apply Nat.eqb_eq; ftypes; lia). ftypes. rewrite B1 in E. cbn [negb] in E.
      assert (B2 : same_shape (s_position s) (s_pbest_pos s) = true) by (eapply is_matrix_same_shape; eassumption). ftypes. rewrite B2 in E.
      match type of E with context [Nat.eqb ?a ?b] => assert (B3 : Nat.eqb a b = true) end. { apply Nat.eqb_eq. rewrite map2_length. destruct SP as [SP _]. apply Nat.eqb_eq in B1. ftypes. lia. }
      rewrite B3 in E. cbn [andb negb] in E. discriminate. }
  assert (SH : forall m, m = n \/ m = 1 -> pbest_shapes d [m] [n] [n; d] [n; d] = Ok ([n; d], [n])).
  { intros m M. unfold pbest_shapes. rewrite broadcast_same, !broadcast_one. replace (Nat.eqb n 1) with false by (symmetry; apply Nat.eqb_neq; lia).
    destruct M as [->| ->].
    - rewrite Nat.eqb_refl. cbn [bind]. rewrite broadcast_same. cbn [bind]. rewrite broadcast_one, Nat.eqb_refl. reflexivity.
    - replace (Nat.eqb 1 n) with false by (symmetry; apply Nat.eqb_neq; lia). replace (Nat.eqb n 1) with false by (symmetry; apply Nat.eqb_neq; lia). cbn [Nat.eqb bind]. rewrite broadcast_same. cbn [bind]. rewrite broadcast_one, Nat.eqb_refl. reflexivity. }
  assert (BAD : forall m, m <> n -> m <> 1 -> pbest_shapes d [m] [n] [n; d] [n; d] = Err ValueError).
  { intros m M M1. unfold pbest_shapes. rewrite broadcast_one. replace (Nat.eqb m n) with false by (symmetry; apply Nat.eqb_neq; lia). replace (Nat.eqb m 1) with false by (symmetry; apply Nat.eqb_neq; lia). replace (Nat.eqb n 1) with false by (symmetry; apply Nat.eqb_neq; lia). reflexivity. }
  destruct (s_current_cost s) as [|a [|b l]].
  - rewrite (pbest_wrong s []) by (ftypes; rewrite LC; cbn [length]; lia). apply BAD; cbn [length]; lia.
  - destruct (OKS (repeat a n) (repeat_length _ _)) as (pp & pc & E & E1 & E2). ftypes. rewrite E, E1, E2. apply SH. right. reflexivity.
  - destruct (Nat.eq_dec (length (a :: b :: l)) n) as [L|L].
    + destruct (OKS (a :: b :: l) L) as (pp & pc & E & E1 & E2). ftypes. rewrite E, E1, E2. apply SH. left. exact L.
    + rewrite (pbest_wrong s (a :: b :: l)) by (ftypes; rewrite LC; exact L). apply BAD; [exact L|cbn [length]; lia].
Qed.
Lemma mapM_plain : forall (f : fmatrix -> res ndarray) (g : fmatrix -> res given) l, (forall X, f X = match g X with Ok v => Ok (as_array v) | Err x => Err x end) ->
  mapM f l = match mapM g l with Ok vs => Ok (map as_array vs) | Err x => Err x end.
Proof.
  intros f g l F. induction l as [|X l IH]; [reflexivity|]. cbn [mapM]. rewrite F. destruct (g X) as [v|x]; cbn [bind]; [|reflexivity]. rewrite IH. destruct (mapM g l) as [vs|x]; reflexivity.
Qed.
Lemma concat_plain : forall vs, vs <> [] -> np_concatenate (map as_array vs) =
  match mapM (fun g => match g with Array l => Ok l | Single _ => Err ValueError end) vs with Ok ls => Ok (mkArray [length (concat ls)] (concat ls)) | Err x => Err x end.
Proof.
  intros vs NE. unfold np_concatenate.
  assert (G : match mapM (fun g => match g with Array l => Ok l | Single _ => Err ValueError end) vs with
    | Ok ls => forallb (fun b => match a_shape b with [] => false | _ :: r => if list_eq_dec Nat.eq_dec r [] then true else false end) (map as_array vs) = true /\
        fold_right (fun b k => hd 0 (a_shape b) + k) 0 (map as_array vs) = length (concat ls) /\ concat (map a_entries (map as_array vs)) = concat ls
    | Err x => x = ValueError /\ forallb (fun b => match a_shape b with [] => false | _ :: r => if list_eq_dec Nat.eq_dec r [] then true else false end) (map as_array vs) = false end).
  { clear NE. induction vs as [|v vs IH]; [repeat split|]. cbn [mapM map]. destruct v as [x|l]; cbn [bind as_array]; [split; reflexivity|].
    destruct (mapM _ vs) as [ls|x]; cbn [bind].
    - destruct IH as (A & B & C). cbn [forallb a_shape fold_right hd concat map a_entries]. rewrite A, B, C, app_length. split; [destruct (list_eq_dec Nat.eq_dec [] []); [reflexivity|congruence]|]. split; reflexivity.
    - destruct IH as (A & B). split; [exact A|]. cbn [forallb a_shape]. rewrite B. apply andb_false_r. }
  destruct vs as [|v vs]; [congruence|]. destruct v as [x|l].
  - cbn [map as_array a_shape mapM bind]. reflexivity.
  - cbn [map as_array a_shape] in *. match goal with |- context [mapM ?h ?w] => destruct (mapM h w) as [ls|x] end; [destruct G as (A & B & C); rewrite A, B, C; reflexivity|destruct G as (-> & A); rewrite A; reflexivity].
Qed.
Lemma objective_plain : forall pool (f : fmatrix -> res ndarray) (g : fmatrix -> res given) X, pool <> Some 0 -> (forall Y, f Y = match g Y with Ok v => Ok (as_array v) | Err x => Err x end) ->
  objective_array pool f X = match objective_given pool g X with Ok v => Ok (as_array v) | Err x => Err x end.
Proof.
  intros pool f g X P F. destruct pool as [[|k]|]; [congruence| |exact (F X)]. unfold objective_array, objective_given. rewrite (mapM_plain f g _ F). destruct (chunks _ X k) as (_ & LC & _).
  assert (ML : forall l vs, mapM g l = Ok vs -> length vs = length l).
  { clear. induction l as [|Y l IH]; intros vs E; cbn [mapM] in E; [injection E as <-; reflexivity|]. destruct (g Y); [|discriminate]. cbn [bind] in E. destruct (mapM g l) as [ws|]; [|discriminate]. cbn [bind] in E. injection E as <-. cbn [length]. f_equal. apply IH. reflexivity. }
  destruct (mapM g (array_split X (S k))) as [vs|x] eqn:E; cbn [bind]; [|reflexivity]. apply ML in E. rewrite concat_plain; [|intros ->; cbn [length] in E; ftypes; lia].
  destruct (mapM _ vs) as [ls|x]; reflexivity.
Qed.
Lemma evaluate_plain : forall c e f g pool i o q, pool <> Some 0 -> plainly f g -> evaluate_array c e f pool i o q = evaluate_given c e g pool i o q.
Proof.
  intros c e f g pool i o q P F. unfold evaluate_array, evaluate_given. cbv zeta. rewrite (objective_plain pool (f i) (g i) _ P (F i)). destruct (objective_given pool (g i) (s_position (o_swarm o))) as [[x|l]|x]; reflexivity.
Qed.
Lemma array_plain : forall c e f g pool iters o, plainly f g -> optimize_array c e f pool iters o = optimize_given c e g pool iters o.
Proof.
  intros c e f g pool iters o F. unfold optimize_array, optimize_given.
  assert (L : pool <> Some 0 -> forall m i o q, loop_array c e f pool iters m i o q = loop_given c e g pool iters m i o q).
  { intros P. induction m as [|m IH]; intros i o1 q; [reflexivity|]. cbn [loop_array loop_given]. unfold iteration_given. rewrite (evaluate_plain c e f g pool i o1 q P F). destruct (evaluate_given c e g pool i o1 q) as [o2 q2|o2|o2 x]; try reflexivity.
    destruct (update_swarm c e iters i o2 q2) as [o3 q3|o3|o3 x]; try reflexivity. apply IH. }
  destruct pool as [[|k]|]; [reflexivity| |]; rewrite L by congruence; reflexivity.
Qed.
Lemma axes_any : forall c e f pool i o q, 2 <= c_n c -> 2 <= c_d c -> c_n c <> c_d c -> shaped (c_n c) (c_d c) (o_swarm o) -> s_d (o_swarm o) = c_d c -> length (s_pbest_cost (o_swarm o)) = c_n c ->
  (forall X, exists a, f i X = Ok a /\ 2 <= length (a_shape a)) -> exists o', evaluate_array c e f pool i o q = Raise o' ValueError /\ but_cost o' o.
Proof.
  intros c e f pool i o q N D ND (SP & _ & SB) SD LC F. unfold evaluate_array. cbv zeta. destruct (objective_axes pool (f i) (s_position (o_swarm o)) F) as [H|(a & H & L)]; rewrite H.
  - exists o. split; [reflexivity|]. rewrite (sc_self o) at 1. apply sc_but.
  - exists (sc (a_entries a) o). split; [|apply sc_but].
    assert (W : compute_pbest_array (a_shape a) (set_current_cost (o_swarm o) (a_entries a)) = Err ValueError).
    { unfold compute_pbest_array. cbn [s_d s_pbest_cost s_pbest_pos s_position set_current_cost]. ftypes. rewrite LC, SD. rewrite (matrix_shape_is (c_n c) (c_d c) (s_pbest_pos (o_swarm o)) ltac:(lia) SB), (matrix_shape_is (c_n c) (c_d c) (s_position (o_swarm o)) ltac:(lia) SP).
      pose proof (shapes_raise (c_n c) (c_d c) (a_shape a) N D ND L) as R. destruct (a_shape a) as [|h [|h2 r]]; cbn [length] in L; [lia|lia|]. rewrite R. reflexivity. }
    rewrite W. reflexivity.
Qed.
