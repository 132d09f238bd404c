(** The pictures of a run (C70). *)
From Coq Require Import String ZArith List Arith Bool Lia.
From Flocq Require Import BinarySingleNaN.
From Verif Require Import Prelude ListFacts F64 F64Facts Num Np NpFacts Handlers Swarms Operators
  Generators Topology Optimizers Spec SpecHandlers SpecDyn SpecRun SpecPlot Tools ToolFacts HandlerFacts RunFacts PbestFacts RunMain RunResults RunClaims Textbook RunningMin Shapes.
Import ListNotations.
Local Open Scope list_scope.
Local Open Scope nat_scope.

(** *** Which pictures can be drawn *)
Lemma take_ok : forall A k (l : list A), (exists m, take k l = Ok m) <-> k <= length l.
Proof.
  intros A k l. unfold take. destruct (Nat.leb_spec k (length l)) as [H|H]; split; intros Q; eauto; [destruct Q; discriminate|lia].
Qed.
Lemma take_err : forall A k (l : list A) x, take k l = Err x -> x = IndexError.
Proof. intros A k l x. unfold take. destruct (_ <=? _); [discriminate|]. intros E. injection E as <-. reflexivity. Qed.
Lemma animated_ok : forall k h mark d m np an, animated k h mark d m np = Ok an ->
  an_frames an = seq 0 (length h) /\ an_data an = h /\ an_labels an = firstn k (ds_label d) /\ an_limits an = firstn k (ds_limits d) /\
  match m with None => an_mesh an = None | Some ms => exists zz, an_mesh an = Some zz /\ mesher_mesh ms np = Ok zz end /\
  an_mark an = match mark with None => None | Some p => Some (firstn k p) end.
Proof.
  intros k h mark d m np an H. unfold animated in H. apply bind_Ok in H. destruct H as (l & L & H). apply bind_Ok in H. destruct H as (li & Li & H).
  apply bind_Ok in H. destruct H as (zz & Z & H). apply bind_Ok in H. destruct H as (mk & M & H). injection H as <-. cbn.
  unfold take in L, Li. destruct (_ <=? _) in L; [|discriminate]. destruct (_ <=? _) in Li; [|discriminate]. injection L as <-. injection Li as <-.
  split; [reflexivity|]. split; [reflexivity|]. split; [reflexivity|]. split; [reflexivity|]. split.
  - destruct m as [ms|]; [|injection Z as <-; reflexivity]. apply bind_Ok in Z. destruct Z as (z & Z1 & Z2). injection Z2 as <-. eauto.
  - destruct mark as [p|]; [|injection M as <-; reflexivity]. apply bind_Ok in M. destruct M as (q & M1 & M2). injection M2 as <-.
    unfold take in M1. destruct (_ <=? _) in M1; [|discriminate]. injection M1 as <-. reflexivity.
Qed.
Lemma animated_total : forall k h mark d np, k <= length (ds_label d) -> k <= length (ds_limits d) ->
  (forall p, mark = Some p -> k <= length p) -> exists an, animated k h mark d None np = Ok an.
Proof.
  intros k h mark d np L1 L2 L3. unfold animated. apply take_ok in L1, L2. destruct L1 as [l ->]. destruct L2 as [l2 ->]. cbn [bind].
  destruct mark as [p|]; [|eexists; reflexivity]. specialize (L3 p eq_refl). apply take_ok in L3. destruct L3 as [q ->]. eexists; reflexivity.
Qed.
Lemma contour_default : forall h np, exists an, plot_contour h None None None np = Ok an.
Proof. intros h np. apply animated_total; cbn; [lia|lia|discriminate]. Qed.
Lemma surface_default : forall h np, exists an, plot_surface h None None None np = Ok an.
Proof. intros h np. apply animated_total; cbn; [lia|lia|discriminate]. Qed.
Lemma cost_default : forall B, exists lp, plot_cost_history B None = Ok lp.
Proof. intros B. unfold plot_cost_history. cbn. eauto. Qed.
Lemma short_designer : forall h mark d m np, 
  (length (ds_label d) < 2 -> plot_contour h mark (Some d) m np = Err IndexError /\ forall B, plot_cost_history B (Some d) = Err IndexError) /\
  (length (ds_label d) < 3 -> plot_surface h mark (Some d) m np = Err IndexError) /\
  (length (ds_limits d) < 2 -> plot_contour h mark (Some d) m np = Err IndexError) /\
  (length (ds_limits d) < 3 -> plot_surface h mark (Some d) m np = Err IndexError).
Proof.
  intros h mark d m np.
  assert (T : forall A k (l : list A), length l < k -> take k l = Err IndexError).
  { intros A k l L. unfold take. destruct (Nat.leb_spec k (length l)); [lia|reflexivity]. }
  assert (A1 : forall k, length (ds_label d) < k -> animated k h mark d m np = Err IndexError).
  { intros k L. unfold animated. rewrite T by exact L. reflexivity. }
  assert (A2 : forall k, length (ds_limits d) < k -> animated k h mark d m np = Err IndexError).
  { intros k L. unfold animated. destruct (take k (ds_label d)) as [l|x] eqn:E; cbn [bind].
    - rewrite T by exact L. reflexivity.
    - apply take_err in E. subst x. reflexivity. }
  split; [|split; [exact (A1 3)|split; [exact (A2 2)|exact (A2 3)]]].
  intros L. split; [exact (A1 2 L)|]. intros B. unfold plot_cost_history. rewrite T by exact L. reflexivity.
Qed.

(** *** The curve *)
Lemma cost_points : forall B d lp, plot_cost_history B d = Ok lp ->
  length (lp_points lp) = length B /\ (forall t b, nth_error B t = Some b <-> nth_error (lp_points lp) t = Some (t, b)).
Proof.
  intros B d lp H. unfold plot_cost_history in H. apply bind_Ok in H. destruct H as (l & _ & H). injection H as <-. cbn.
  split; [rewrite combine_length, seq_length; lia|].
  assert (G : forall (B : list f64) s t b, nth_error B t = Some b <-> nth_error (combine (seq s (length B)) B) t = Some (s + t, b)).
  { clear. intros B. induction B as [|y B IH]; intros s t b.
    - destruct t; cbn; split; discriminate.
    - destruct t as [|t]; cbn.
      + rewrite Nat.add_0_r. split; intros E; injection E as <-; reflexivity.
      + rewrite (IH (S s) t b). replace (S s + t) with (s + S t) by lia. reflexivity. }
  intros t b. apply (G B 0 t b).
Qed.

(** *** The frames *)
Lemma animate_flat : forall n (h : list fmatrix) t (X : fmatrix), 0 < n -> is_matrix n 2 X -> nth_error h t = Some X -> animate t h = Ok (Flat X).
Proof.
  intros n h t X N [L F] E. unfold animate. rewrite E. cbn [of_option bind]. destruct X as [|r X]; [cbn in L; lia|].
  inversion F; subst. rewrite H1. reflexivity.
Qed.
Lemma contour_run : forall c o calls o' mark d m np an, Fresh c o -> shaped (c_n c) 2 (o_swarm o) -> c_d c = 2 -> 0 < c_n c ->
  Session c o calls o' -> plot_contour (o_pos_history o') mark d m np = Ok an ->
  an_frames an = seq 0 (length (o_cost_history o')) /\
  forall t, In t (an_frames an) -> exists X, nth_error (o_pos_history o') t = Some X /\ length X = c_n c /\ animate t (an_data an) = Ok (Flat X).
Proof.
  intros c o calls o' mark d m np an F S D N Z H. apply animated_ok in H. destruct H as (A1 & A2 & _).
  rewrite <- D in S. destruct (session_shapes _ _ _ _ S F Z) as (_ & SP & _). rewrite D in SP.
  assert (LE : length (o_pos_history o') = length (o_cost_history o')).
  { pose proof (Session_RI _ _ _ _ Z (Fresh_RI _ _ F)) as R. apply R. }
  split; [rewrite A1, LE; reflexivity|]. intros t T. rewrite A1 in T. apply in_seq in T.
  destruct (nth_error_ex (o_pos_history o') t) as [X E]; [lia|]. exists X. split; [exact E|].
  rewrite Forall_forall in SP. pose proof (SP X (nth_error_In _ _ E)) as M. split; [apply M|]. rewrite A2. eapply animate_flat; eauto.
Qed.

(** *** Surfaces *)
Lemma mapM_concat : forall (g : frow -> res f64) blocks parts, Forall2 (fun b r => mapM g b = Ok r) blocks parts -> mapM g (concat blocks) = Ok (concat parts).
Proof.
  intros g blocks parts H. apply mapM_Ok. induction H as [|b r bs ps E H IH]; [constructor|]. cbn [concat]. apply Forall2_app; [apply mapM_Ok; exact E|exact IH].
Qed.
Lemma scores_rows : forall (g : frow -> res f64) f pool X cs, (forall X, f X = mapM g X) -> scores f pool X cs -> mapM g X = Ok cs.
Proof.
  intros g f pool X cs G H. unfold scores in H. destruct pool as [k|].
  - destruct H as (blocks & parts & <- & <- & H). apply mapM_concat. clear -G H. induction H as [|b r bs ps E H IH]; constructor; auto. rewrite <- G. exact E.
  - rewrite <- G. exact H.
Qed.
Lemma logs_rows : forall (g : frow -> res f64) n calls logs, (forall k t X, In k calls -> e_obj (k_env k) t X = mapM g X) ->
  Forall2 (fun k (hc : list fmatrix * list (list f64)) => logged (k_env k) (k_pool k) (fst hc) (snd hc) /\ all_evaluated n (fst hc) (snd hc)) calls logs ->
  Forall2 (fun X cs => mapM g X = Ok cs) (concat (map fst logs)) (concat (map snd logs)).
Proof.
  intros g n calls logs G H. induction H as [|k [h C] l m [[L LG] _] H IH]; [constructor|]. cbn in *.
  apply Forall2_app; [|apply IH; intros; apply G; right; assumption].
  assert (Q : forall t X cs, nth_error h t = Some X -> nth_error C t = Some cs -> mapM g X = Ok cs).
  { intros t X cs E1 E2. eapply scores_rows; [|eapply LG; eauto]. intros Y. apply G. left. reflexivity. }
  clear -L Q. revert C L Q. induction h as [|X h IH]; intros [|cs C] L Q; try discriminate; constructor.
  - apply (Q 0); reflexivity.
  - apply IH; [cbn in L; lia|]. intros t. apply (Q (S t)).
Qed.
Lemma nth_map_seq : forall A (f : nat -> A) k j, j < k -> nth_error (map f (seq 0 k)) j = Some (f j).
Proof. intros A f k j L. rewrite nth_error_map, nth_error_nth' with (d := 0) by (rewrite seq_length; lia). rewrite seq_nth by lia. reflexivity. Qed.
Lemma surface_frame : forall f (g : frow -> res f64) P np H t (X : fmatrix) cs n, (forall X, f X = mapM g X) -> compute_history_3d f P np = Ok H -> 0 < n -> is_matrix n 2 X ->
  nth_error P t = Some X -> mapM g X = Ok cs ->
  animate t H = Ok (Space [map (fun r => nth 0 r fzero) X; map (fun r => nth 1 r fzero) X; cs]).
Proof.
  intros f g P np H t X cs n G E N [L F] EX M. destruct (history_claim _ _ _ _ _ G E) as [_ HC]. destruct (HC t X EX) as (Y & EY & LY & RY).
  assert (Q : Y = map2 (fun r v => r ++ [v]) X cs).
  { apply mapM_Ok in M. clear -LY RY M. revert Y LY RY. induction M as [|r v X cs E M IH]; intros Y LY RY; [destruct Y; [reflexivity|discriminate]|].
    destruct Y as [|y Y]; [discriminate|]. cbn [map2]. destruct (RY 0 r eq_refl) as (v' & V1 & V2). cbn in V2. injection V2 as ->. pose proof (eq_trans (eq_sym V1) E) as Z. injection Z as ->. f_equal.
    apply IH; [injection LY as LY; exact LY|]. intros i. apply (RY (S i)). }
  clear RY. unfold animate. rewrite EY. cbn [of_option bind].
  assert (LC : length cs = length X) by (eapply mapM_length; eauto). clear M EX EY HC E G.
  subst Y. destruct X as [|r X]; [cbn in L; lia|]. destruct cs as [|v cs]; [discriminate|]. cbn [map2].
  inversion F as [|? ? F1 F2]; subst. destruct r as [|x [|y [|? ?]]]; try discriminate. cbn [app length Nat.eqb].
  f_equal. f_equal. unfold transpose. cbn [seq map].
  assert (Z : forall X cs, length cs = length X -> Forall (fun r : frow => length r = 2) X ->
    map (fun r => nth 0 r fzero) (map2 (fun (r : frow) v => r ++ [v]) X cs) = map (fun r => nth 0 r fzero) X /\
    map (fun r => nth 1 r fzero) (map2 (fun (r : frow) v => r ++ [v]) X cs) = map (fun r => nth 1 r fzero) X /\
    map (fun r => nth 2 r fzero) (map2 (fun (r : frow) v => r ++ [v]) X cs) = cs).
  { clear. intros X. induction X as [|r X IH]; intros [|v cs] L F; try discriminate; [auto|]. inversion F as [|? ? F1 F2]; subst.
    destruct (IH cs ltac:(injection L as L; exact L) F2) as (A & B & D). cbn [map2 map].
    destruct r as [|x [|y [|? ?]]]; try discriminate. cbn [app nth]. split; [exact (f_equal (cons x) A)|]. split; [exact (f_equal (cons y) B)|exact (f_equal (cons v) D)]. }
  destruct (Z X cs ltac:(injection LC as LC; exact LC) F2) as (Z1 & Z2 & Z3). cbn [nth].
  refine (f_equal2 cons (f_equal (cons x) Z1) (f_equal2 cons (f_equal (cons y) Z2) (f_equal2 cons (f_equal (cons v) Z3) eq_refl))).
Qed.
Lemma surface_run : forall c o calls o' f (g : frow -> res f64) np H mark d m np' an d' lp,
  Fresh c o -> shaped (c_n c) 2 (o_swarm o) -> c_d c = 2 -> 0 < c_n c -> t_kind (o_top o) = Star -> Session c o calls o' ->
  (forall X, f X = mapM g X) -> (forall k t X, In k calls -> e_obj (k_env k) t X = f X) ->
  compute_history_3d f (o_pos_history o') np = Ok H -> plot_surface H mark d m np' = Ok an -> plot_cost_history (o_cost_history o') d' = Ok lp ->
  an_frames an = map fst (lp_points lp) /\
  (forall t, In t (an_frames an) -> exists X zs, nth_error (o_pos_history o') t = Some X /\ heights an t zs /\ length zs = c_n c /\
     forall i x y, nth_error X i = Some [x; y] -> exists z, point an t i x y z /\ g [x; y] = Ok z) /\
  (forall t b, In (t, b) (lp_points lp) -> curve_is_lowest an t b).
Proof.
  intros c o calls o' f g np H mark d m np' an d' lp F S D N K Z G EO EH EP EL.
  apply animated_ok in EP. destruct EP as (A1 & A2 & _).
  pose proof (cost_points _ _ _ EL) as [LP PT].
  rewrite <- D in S. destruct (session_shapes _ _ _ _ S F Z) as (_ & SP & _). rewrite D in SP. rewrite Forall_forall in SP.
  assert (LE : length (o_pos_history o') = length (o_cost_history o')).
  { pose proof (Session_RI _ _ _ _ Z (Fresh_RI _ _ F)) as R. apply R. }
  destruct (history_claim _ _ _ _ _ G EH) as [LH _].
  destruct (star_curve _ _ _ _ F K Z) as (logs & LG & CL & [LB RM]).
  assert (EO' : forall k t X, In k calls -> e_obj (k_env k) t X = mapM g X) by (intros; rewrite EO by assumption; apply G).
  pose proof (logs_rows g _ _ _ EO' LG) as RW. rewrite CL in RW. set (C := concat (map snd logs)) in *. clearbody C.
  assert (FR : forall t X cs, nth_error (o_pos_history o') t = Some X -> nth_error C t = Some cs ->
     animate t (an_data an) = Ok (Space [map (fun r => nth 0 r fzero) X; map (fun r => nth 1 r fzero) X; cs])).
  { intros t X cs EX EC. rewrite A2. eapply surface_frame; eauto; [apply SP; eapply nth_error_In; eauto|].
    exact (Forall2_nth_both _ _ _ _ _ RW _ _ _ EX EC). }
  assert (EX : forall t, t < length (o_cost_history o') -> exists X cs, nth_error (o_pos_history o') t = Some X /\ nth_error C t = Some cs).
  { intros t T. destruct (nth_error_ex (o_pos_history o') t) as [X E]; [lia|]. destruct (nth_error_ex C t) as [cs E']; [|eauto].
    pose proof (Forall2_len _ _ _ RW) as LR. eapply Nat.lt_le_trans; [exact T|]. rewrite <- LE. apply Nat.eq_le_incl. exact LR. }
  split; [|split].
  - rewrite A1, LH, LE. unfold plot_cost_history in EL. apply bind_Ok in EL. destruct EL as (l & _ & EL). injection EL as <-. cbn.
    clear. generalize (o_cost_history o') at 1 2 3. intros B. generalize 0. induction B as [|b B IH]; intros s; [reflexivity|]. cbn. f_equal. apply IH.
  - intros t T. rewrite A1, LH, LE in T. apply in_seq in T. destruct (EX t) as (X & cs & E1 & E2); [lia|].
    exists X, cs. split; [exact E1|]. pose proof (FR t X cs E1 E2) as Q. pose proof (Forall2_nth_both _ _ _ _ _ RW _ _ _ E1 E2) as M. cbv beta in M.
    split; [do 2 eexists; exact Q|]. split; [rewrite (mapM_length _ _ _ M); apply SP; eapply nth_error_In; eauto|].
    intros i x y R. destruct (mapM_Ok_nth _ _ _ _ _ M R) as (z & Z1 & Z2). exists z. split; [|assumption].
    exists (map (fun r => nth 0 r fzero) X), (map (fun r => nth 1 r fzero) X), cs. split; [exact Q|].
    split; [exact (map_nth_error (fun r : frow => nth 0 r fzero) i X R)|]. split; [exact (map_nth_error (fun r : frow => nth 1 r fzero) i X R)|assumption].
  - intros t b I. apply In_nth_error in I. destruct I as [i I]. assert (T : i = t).
    { assert (i < length (o_cost_history o')) by (apply nth_error_lt in I; lia). destruct (nth_error_ex (o_cost_history o') i) as [b' B']; [lia|].
      apply PT in B'. congruence. } subst i.
    apply PT in I. destruct (RM t b I) as [R1 R2]. split.
    + intros t' zs z T (xs & ys & Q) J. apply In_nth_error in J. destruct J as [a J].
      assert (t' < length (o_cost_history o')) by (apply nth_error_lt in I; lia). destruct (EX t') as (X & cs & E1 & E2); [lia|].
      rewrite (FR _ _ _ E1 E2) in Q. injection Q as _ _ <-.
      destruct (nth_error_ex X a) as [x E3]. { eapply Nat.lt_le_trans; [eapply nth_error_lt; exact J|]. apply Nat.eq_le_incl. exact (mapM_length _ _ _ (Forall2_nth_both _ _ _ _ _ RW _ _ _ E1 E2)). }
      apply (R1 a t' x z T). exists X, cs. auto.
    + destruct R2 as [R2|(a & t' & x & T & X & cs & E1 & E2 & E3 & E4)]; [left; exact R2|]. right. exists t', cs. split; [exact T|].
      split; [do 2 eexists; exact (FR _ _ _ E1 E2)|eapply nth_error_In; eauto].
Qed.
Lemma default_plots : forall h np B, (exists an, plot_contour h None None None np = Ok an) /\ (exists an, plot_surface h None None None np = Ok an) /\
  exists lp, plot_cost_history B None = Ok lp.
Proof. intros h np B. split; [apply contour_default|]. split; [apply surface_default|apply cost_default]. Qed.

(** *** Axes, the marked point and the mesh *)
Lemma nth_firstn_lt : forall A k j (l : list A), j < k -> nth_error (firstn k l) j = nth_error l j.
Proof. induction k; intros [|j] [|x l] L; cbn; auto; try lia. apply IHk. lia. Qed.
Lemma animated_axes : forall k h mark d m np an, animated k h mark d m np = Ok an -> axes_shown k mark d m an.
Proof.
  intros k h mark d m np an H. unfold animated in H. apply bind_Ok in H. destruct H as (l & L & H). apply bind_Ok in H. destruct H as (li & Li & H).
  apply bind_Ok in H. destruct H as (zz & Z & H). apply bind_Ok in H. destruct H as (mk & M & H). injection H as <-. cbn.
  assert (T : forall A k (l m : list A), take k l = Ok m -> length m = k /\ forall j, j < k -> nth_error m j = nth_error l j).
  { clear. intros A k l m. unfold take. destruct (Nat.leb_spec k (length l)) as [G|G]; [|discriminate]. intros E. injection E as <-.
    split; [rewrite firstn_length; lia|]. intros j J. apply nth_firstn_lt. exact J. }
  destruct (T _ _ _ _ L) as [L1 L2]. destruct (T _ _ _ _ Li) as [L3 L4]. split; [exact L1|]. split; [exact L3|]. split; [auto|]. split.
  - intros p ->. apply bind_Ok in M. destruct M as (q & M1 & M2). injection M2 as <-. exists q. split; [reflexivity|]. apply T. exact M1.
  - intros ms g -> G. apply bind_Ok in Z. destruct Z as ([[xx yy] z0] & Z1 & Z2). injection Z2 as <-. exists xx, yy, z0. split; [reflexivity|].
    unfold mesher_mesh in Z1. apply bind_Ok in Z1. destruct Z1 as (xl & X1 & Z1). apply bind_Ok in Z1. destruct Z1 as (yl & Y1 & Z1).
    destruct (mesh_claim _ _ _ _ _ _ _ _ _ G Z1) as (x & y & _ & _ & [SX FX] & _ & _ & Q). intros i j a b EA EB.
    destruct (entry_lt _ _ _ _ _ _ (conj SX FX) EA) as [I J].
    destruct (nth_error_ex y i I) as [b' B']. destruct (nth_error_ex x j J) as [a' A']. destruct (Q i j a' b' B' A') as (Q1 & Q2 & z & Q3 & Q4).
    exists z. split; [exact Q3|]. pose proof (eq_trans (eq_sym Q1) EA) as W1. injection W1 as ->.
    pose proof (eq_trans (eq_sym Q2) EB) as W2. injection W2 as ->. exact Q4.
Qed.
Lemma contour_axes : forall h mark d m np an, plot_contour h mark (Some d) m np = Ok an -> axes_shown 2 mark d m an.
Proof. intros h mark d m np an H. eapply animated_axes. exact H. Qed.
Lemma surface_axes : forall h mark d m np an, plot_surface h mark (Some d) m np = Ok an -> axes_shown 3 mark d m an.
Proof. intros h mark d m np an H. eapply animated_axes. exact H. Qed.
Lemma axes : forall h mark d m np an, (plot_contour h mark (Some d) m np = Ok an -> axes_shown 2 mark d m an) /\ (plot_surface h mark (Some d) m np = Ok an -> axes_shown 3 mark d m an).
Proof. intros. split; [apply contour_axes|apply surface_axes]. Qed.
(** A particle shown at a node of the mesh lies on the drawn surface. *)
Lemma on_surface : forall c o calls o' f (g : frow -> res f64) np H mark d delta lim np' an,
  Fresh c o -> shaped (c_n c) 2 (o_swarm o) -> c_d c = 2 -> 0 < c_n c -> t_kind (o_top o) = Star -> Session c o calls o' ->
  (forall X, f X = mapM g X) -> (forall k t X, In k calls -> e_obj (k_env k) t X = f X) ->
  compute_history_3d f (o_pos_history o') np = Ok H -> plot_surface H mark d (Some (mkMesher f delta lim)) np' = Ok an ->
  exists xx yy zz, an_mesh an = Some (xx, yy, zz) /\ forall t i x y z a b, In t (an_frames an) -> point an t i x y z -> entry xx a b = Some x -> entry yy a b = Some y -> entry zz a b = Some z.
Proof.
  intros c o calls o' f g np H mark d delta lim np' an F S D N K Z G EO EH EP.
  assert (AX : exists d0, animated 3 H mark d0 (Some (mkMesher f delta lim)) np' = Ok an) by (eexists; exact EP). destruct AX as [d0 AX].
  apply animated_axes in AX. destruct AX as (_ & _ & _ & _ & M). destruct (M _ g eq_refl G) as (xx & yy & zz & EM & Q).
  exists xx, yy, zz. split; [exact EM|]. intros t i x y z a b T P EX EY. destruct (Q a b x y EX EY) as (z' & Z1 & Z2).
  destruct (cost_default (o_cost_history o')) as [lp EL].
  destruct (surface_run _ _ _ _ _ _ _ _ _ _ _ _ _ _ _ F S D N K Z G EO EH EP EL) as (_ & W & _).
  destruct (W t T) as (X & zs & EX1 & (xs & ys & HA) & LZ & PT). destruct P as (xs' & ys' & zs' & PA & P1 & P2 & P3).
  pose proof (eq_trans (eq_sym HA) PA) as E. injection E as <- <- <-.
  rewrite <- D in S. destruct (session_shapes _ _ _ _ S F Z) as (_ & SP & _). rewrite D in SP. rewrite Forall_forall in SP.
  pose proof (SP X (nth_error_In _ _ EX1)) as [LX FX].
  assert (I : i < length X). { rewrite LX, <- LZ. apply nth_error_Some. intros Q0. pose proof (eq_trans (eq_sym Q0) P3). discriminate. }
  destruct (nth_error_ex X i I) as [r ER]. rewrite Forall_forall in FX. pose proof (FX r (nth_error_In _ _ ER)) as LR.
  destruct r as [|x0 [|y0 [|? ?]]]; try discriminate. destruct (PT i x0 y0 ER) as (z0 & (xs1 & ys1 & zs1 & PA1 & P11 & P12 & P13) & GZ).
  pose proof (eq_trans (eq_sym HA) PA1) as E. injection E as <- <- <-.
  pose proof (eq_trans (eq_sym P1) P11) as E1. injection E1 as <-. pose proof (eq_trans (eq_sym P2) P12) as E2. injection E2 as <-.
  pose proof (eq_trans (eq_sym P3) P13) as E3. injection E3 as <-. pose proof (eq_trans (eq_sym GZ) Z2) as E4. injection E4 as <-. exact Z1.
Qed.
