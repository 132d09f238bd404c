(** Whole calls of the boundary handler: shrink, random, intermediate. *)
From Coq Require Import String ZArith List Arith Bool Reals Lra Lia.
From Flocq Require Import Core IEEE754.BinarySingleNaN.
From Verif Require Import Prelude F64 F64Facts F64More Num Np Handlers SpecHandlers ListFacts NpFacts ShapeFacts
  HandlerFacts BhFloat BhReal BhClaims.
Import ListNotations.
Local Open Scope string_scope.
Local Open Scope list_scope.
Local Open Scope nat_scope.
#[local] Arguments fdec : simpl never.
#[local] Arguments fofZ : simpl never.

(** *** shrink *)
Lemma np_min_R_fold : forall (l : list R) x, let m := fold_left (np_min2 (N := Rnum)) l x in
  (In m (x :: l)) /\ (m <= x)%R /\ forall y, In y l -> (m <= y)%R.
Proof.
  induction l as [|a l IH]; intros x; cbn [fold_left].
  - split; [left; auto|]. split; [lra | intros y []].
  - set (c := np_min2 (N := Rnum) x a).
    assert (Q : (c = x \/ c = a) /\ (c <= x)%R /\ (c <= a)%R).
    { unfold c, np_min2. cbn [nle nisnan Rnum T]. rewrite orb_false_r. destruct (Rle_bool_spec x a); cbn [T Rnum] in *; lra. }
    clearbody c. destruct Q as (Q & Q1 & Q2). cbn [T Rnum] in *. destruct (IH c) as (A & B & D). split; [|split].
    + destruct A as [A|A]; [|right; right; exact A]. destruct Q as [Q|Q]; [left; congruence | right; left; congruence].
    + lra.
    + intros y [<-|I]; [lra | auto].
Qed.
Lemma np_min_R : forall l : list R, l <> [] -> exists s, np_min (N := Rnum) l = Ok s /\ In s l /\ forall y, In y l -> (s <= y)%R.
Proof.
  intros [|x l] H; [congruence|]. exists (fold_left (np_min2 (N := Rnum)) l x). split; auto.
  destruct (np_min_R_fold l x) as (A & B & C). split; auto. intros y [<-|I]; auto.
Qed.
Lemma sigma_R : forall x m l u : Rnum, (l <= m <= u)%R ->
  let s := sigma_el (N := Rnum) x m l u in
  (0 <= s <= 1)%R /\
  (forall t, 0 <= t <= s -> l <= m + t * (x - m) <= u)%R /\
  ((x < l)%R -> s < 1 /\ m + s * (x - m) = l)%R /\ ((u < x)%R -> s < 1 /\ m + s * (x - m) = u)%R /\
  ((l <= x <= u)%R -> s = 1%R).
Proof.
  intros x m l u H. unfold sigma_el, lower, greater. cbn [nlt nsub ndiv nofZ Rnum T] in *. cbv zeta.
  destruct (Rlt_bool_spec u x) as [A|A]; [|destruct (Rlt_bool_spec x l) as [B|B]].
  - assert (D : (0 < x - m)%R) by lra. assert (E : ((u - m) / (x - m) * (x - m) = u - m)%R) by (field; lra).
    set (q := ((u - m) / (x - m))%R) in *. assert (0 <= q)%R by nra. assert (q < 1)%R by nra.
    split; [lra|]. split; [|split; [intros; lra | split; intros; lra]]. intros t T. split; nra.
  - assert (D : (x - m < 0)%R) by lra. assert (E : ((l - m) / (x - m) * (x - m) = l - m)%R) by (field; lra).
    set (q := ((l - m) / (x - m))%R) in *. assert (0 <= q)%R by nra. assert (q < 1)%R by nra.
    split; [lra|]. split; [|split; [intros; lra | split; intros; lra]]. intros t T. split; nra.
  - split; [lra|]. split; [|split; [intros; lra | split; intros; lra]]. intros t T. split; nra.
Qed.

Lemma shrink_row_R : forall d (b : bounds Rnum) (x m : list R), 0 < d -> box_dim d b -> length x = d -> length m = d ->
  (forall j mj l u, nth_error m j = Some mj -> column b j l u -> (l <= mj <= u)%R) ->
  exists x', shrink_row (N := Rnum) b x m = Ok x' /\ length x' = d /\
    (forall j x'j l u, nth_error x' j = Some x'j -> column b j l u -> (l <= x'j <= u)%R) /\
    (~ below b x -> ~ above b x -> x' = x) /\ (below b x \/ above b x -> pulled_back b x m x').
Proof.
  intros d b x m D B Lx Lm H. unfold shrink_row.
  set (S := map4 (sigma_el (N := Rnum)) x m (b_lb b) (b_ub b)).
  assert (LS : length S = d). { unfold S. rewrite map4_length. destruct B. cbn [T Rnum] in *. unfold row in *. cbn [T Rnum] in *. lia. }
  assert (NS : S <> []). { intros E. rewrite E in LS. simpl in LS. lia. }
  destruct (np_min_R S NS) as (s & Es & Is & Ms). rewrite Es. cbn [bind].
  assert (SJ : forall j xj mj l u, nth_error x j = Some xj -> nth_error m j = Some mj -> column b j l u ->
     nth_error S j = Some (sigma_el (N := Rnum) xj mj l u)).
  { intros j xj mj l u X M [L U]. unfold S. rewrite (nth_error_map4 _ _ _ _ _ j).
    change (T Rnum) with R in *. rewrite X, M, L, U. reflexivity. }
  assert (ALL : forall j, j < d -> exists xj mj l u, nth_error x j = Some xj /\ nth_error m j = Some mj /\ column b j l u).
  { intros j J. destruct (nth_error_ex x j) as [xj X]; [lia|]. destruct (nth_error_ex m j) as [mj M]; [lia|].
    destruct (column_ex d b j B J) as (l & u & C). exists xj, mj, l, u. auto. }
  assert (S0 : (0 <= s <= 1)%R).
  { apply In_nth_error in Is. destruct Is as [j J]. assert (Jd : j < d) by (rewrite <- LS; eapply nth_error_lt; eauto).
    destruct (ALL j Jd) as (xj & mj & l & u & X & M & C). rewrite (SJ j xj mj l u X M C) in J. injection J as <-.
    apply (sigma_R xj mj l u). eapply H; eauto. }
  assert (SLE : forall j xj mj l u, nth_error x j = Some xj -> nth_error m j = Some mj -> column b j l u ->
     (s <= sigma_el (N := Rnum) xj mj l u)%R).
  { intros j xj mj l u X M C. apply Ms. eapply nth_error_In. apply SJ; eauto. }
  destruct (row_lower (N := Rnum) x b || row_greater (N := Rnum) x b) eqn:O.
  - set (x' := map2 (fun xi mi : Rnum => nadd mi (nmul s (nsub xi mi))) x m).
    assert (XJ : forall j xj mj, nth_error x j = Some xj -> nth_error m j = Some mj -> nth_error x' j = Some (mj + s * (xj - mj))%R).
    { intros j xj mj X M. exact (nth_map2_some _ _ _ _ _ _ X M). }
    exists x'. split; auto. split; [unfold x'; rewrite map2_length; cbn [T Rnum] in *; lia|].
    assert (OUT : below b x \/ above b x).
    { apply orb_true_iff in O. destruct O as [O|O]; [left; apply (row_lower_spec d) | right; apply (row_greater_spec d)]; auto. }
    split; [|split].
    + intros j x'j l u X' C. assert (J : j < d) by (destruct B as [B _]; rewrite <- B; destruct C; eapply nth_error_lt; eauto).
      destruct (ALL j J) as (xj & mj & l' & u' & X & M & C'). destruct (column_fun b j l u l' u' C C') as [-> ->].
      rewrite (XJ j xj mj X M) in X'. injection X' as <-.
      apply (sigma_R xj mj l u); [eapply H; eauto|]. split; [lra | eapply SLE; eauto].
    + tauto.
    + intros _. exists s.
      assert (LT : (s < 1)%R).
      { destruct OUT as [(j & xj & l & u & X & C & E)|(j & xj & l & u & X & C & E)];
        (assert (J : j < d) by (rewrite <- Lx; eapply nth_error_lt; eauto));
        destruct (ALL j J) as (xj' & mj & l' & u' & X2 & M & C');
        (assert (xj' = xj) by (pose proof (eq_trans (eq_sym X2) X) as Q; injection Q; auto)); subst xj';
        destruct (sigma_R xj mj l u (H j mj l u M C)) as (_ & _ & S1 & S2 & _);
        pose proof (SLE j xj mj l u X M C) as S3; cbn [nlt Rnum T] in *.
        - revert E. destruct (Rlt_bool_spec xj l); [intros _|discriminate]. destruct (S1 H0). lra.
        - revert E. destruct (Rlt_bool_spec u xj); [intros _|discriminate]. destruct (S2 H0). lra. }
      split; [lra|]. split; [exact XJ|].
      apply In_nth_error in Is. destruct Is as [j Hj]. assert (J : j < d) by (rewrite <- LS; eapply nth_error_lt; eauto).
      destruct (ALL j J) as (xj & mj & l & u & X & M & C). rewrite (SJ j xj mj l u X M C) in Hj. injection Hj as Hj.
      destruct (sigma_R xj mj l u (H j mj l u M C)) as (_ & _ & S1 & S2 & S3). rewrite Hj in S1, S2, S3. cbn [T Rnum] in *.
      exists j, xj, (mj + s * (xj - mj))%R, l, u. split; auto. split; auto. split; [apply XJ; auto|].
      destruct (Rlt_or_le xj l) as [Q|Q]; [left; split; auto; apply S1; auto|].
      destruct (Rlt_or_le u xj) as [Q'|Q']; [right; split; auto; apply S2; auto|]. rewrite S3 in LT by lra. lra.
  - apply orb_false_iff in O. destruct O as [O1 O2]. apply (row_lower_false d) in O1; auto. apply (row_greater_false d) in O2; auto.
    exists x. split; auto. split; auto. split; [|split; [auto|tauto]].
    intros j xj l u X C. destruct (good_el b x j xj l u (conj O1 O2) X C) as [A1 A2]. cbn [nlt Rnum T] in *.
    revert A1 A2. rlt; intros; try discriminate. lra.
Qed.
Lemma shrink_exact : forall n d dr (b : bounds Rnum) (pos mem : matrix Rnum), 0 < d -> is_matrix n d pos -> is_matrix n d mem ->
  box_dim d b -> b_arr b = true ->
  (forall i j m l u, entry mem i j = Some m -> column b j l u -> (l <= m <= u)%R) ->
  exists pos', bh_call "shrink" dr (Some mem) b pos = Ok (pos', Some pos') /\ is_matrix n d pos' /\
    (forall i j x l u, entry pos' i j = Some x -> column b j l u -> (l <= x <= u)%R) /\
    forall i x m, nth_error pos i = Some x -> nth_error mem i = Some m ->
      exists x', nth_error pos' i = Some x' /\
        (~ below b x -> ~ above b x -> x' = x) /\ (below b x \/ above b x -> pulled_back b x m x').
Proof.
  intros n d dr b pos mem D M M' B A H.
  assert (K : exists pos', mapM (fun p => shrink_row (N := Rnum) b (fst p) (snd p)) (combine pos mem) = Ok pos' /\ is_matrix n d pos' /\
     (forall i j x l u, entry pos' i j = Some x -> column b j l u -> (l <= x <= u)%R) /\
     forall i x m, nth_error pos i = Some x -> nth_error mem i = Some m ->
      exists x', nth_error pos' i = Some x' /\
        (~ below b x -> ~ above b x -> x' = x) /\ (below b x \/ above b x -> pulled_back b x m x')).
  { revert mem n M M' H. induction pos as [|x pos IH]; intros [|m mem] n M M' H.
    - exists []. split; auto. split; [destruct M; split; auto|]. split; [intros [|i] j y l u E; discriminate | intros [|i] y z E; discriminate].
    - destruct M as [M _], M' as [M' _]; simpl in *; lia.
    - destruct M as [M _], M' as [M' _]; simpl in *; lia.
    - destruct M as [M1 M2], M' as [M1' M2']. pose proof (Forall_inv M2) as X1. pose proof (Forall_inv_tail M2) as X2.
      pose proof (Forall_inv M2') as Y1. pose proof (Forall_inv_tail M2') as Y2. simpl in M1, M1', X1, Y1.
      destruct (shrink_row_R d b x m) as (x' & E & L' & I1 & I2 & I3); auto.
      { intros j mj l u Mj C. apply (H 0 j mj l u); auto. }
      destruct (IH mem (length pos)) as (pos' & E' & [P1 P2] & J1 & J2).
      { split; auto. }
      { split; auto. unfold row, matrix in *. change (T Rnum) with R in *. lia. }
      { intros i j y l u Y C. apply (H (S i) j y l u); auto. }
      exists (x' :: pos'). split. { cbn [combine mapM fst snd]. rewrite E. cbn [bind]. rewrite E'. reflexivity. }
      split. { split; [simpl; unfold row, matrix in *; change (T Rnum) with R in *; lia | constructor; auto]. }
      split.
      + intros [|i] j y l u Y C; [exact (I1 j y l u Y C) | exact (J1 i j y l u Y C)].
      + intros [|i] y z Y Z; [|apply (J2 i y z); auto]. injection Y as <-. injection Z as <-. exists x'. auto. }
  destruct K as (pos' & E & K). exists pos'. split; auto. rewrite (shrink_eq n d); auto. unfold shrink.
  rewrite A, (is_matrix_same_shape n d pos mem M M'). cbn [negb]. rewrite E. reflexivity.
Qed.
Lemma memory_first : forall (N : Num) st n d dr (b : bounds N) pos, st = "shrink" \/ st = "intermediate" -> is_matrix n d pos ->
  box_dim d b -> bh_call st dr None b pos = Ok (pos, Some pos).
Proof.
  intros N st n d dr b pos [-> | ->] M B; [rewrite (shrink_eq n d) | rewrite (intermediate_eq n d)]; auto.
Qed.

(** *** random *)
Lemma random_claim : forall n d (dr : bh_draws F64num) (mem : option (matrix F64num)) (b : bounds F64num) (pos : matrix F64num), is_matrix n d pos -> box_dim d b -> finite_box b ->
  (forall j l u, column b j l u -> ffinite (fsub u l) = true) ->
  unit_draws d (bd_greater dr) -> unit_draws d (bd_lower dr) ->
  exists pos' low high, bh_call "random" dr mem b pos = Ok (pos', mem) /\ is_matrix n d pos' /\
    length low = d /\ length high = d /\ row_inside_box b low /\ row_inside_box b high /\
    forall i r, nth_error pos i = Some r -> exists r', nth_error pos' i = Some r' /\
      (~ below b r -> ~ above b r -> r' = r) /\ (below b r -> r' = low) /\ (~ below b r -> above b r -> r' = high).
Proof.
  intros n d dr mem b pos M B FB W [Lg Ug] [Ll Ul].
  assert (IN : forall v, length v = d -> (forall j x, nth_error v j = Some x -> fle fzero x = true /\ flt x fone = true) ->
     length (resample (N := F64num) b v) = d /\ row_inside_box b (resample (N := F64num) b v)).
  { intros v Lv Uv. split. { pose proof B as [B1 B2]. rewrite resample_length; ftypes; lia. }
    intros j x l u X [Cl Cu]. unfold resample in X. rewrite (nth_error_map3 _ _ _ _ j) in X. ftypes.
    rewrite Cl, Cu in X. destruct (nth_error v j) as [t|] eqn:Et; [|discriminate]. injection X as <-.
    destruct (FB j l u (conj Cl Cu)) as (Fl & Fu & LU). destruct (Uv j t Et) as [U1 U2].
    destruct (unit_draw t U1 U2). apply draw_in_l; auto. apply (W j). split; auto. }
  destruct (IN (bd_greater dr) Lg Ug) as [G1 G2]. destruct (IN (bd_lower dr) Ll Ul) as [L1 L2].
  set (low := resample (N := F64num) b (bd_lower dr)) in *. set (high := resample (N := F64num) b (bd_greater dr)) in *.
  set (pos' := map (fun r => if row_lower r b then low else if row_greater r b then high else r) pos).
  assert (E : random_bh (N := F64num) (bd_greater dr) (bd_lower dr) b pos = Ok pos').
  { unfold random_bh. replace (forallb _ pos) with true; auto. symmetry. apply forallb_forall. intros r I.
    apply In_nth_error in I. destruct I as [i I]. pose proof (is_matrix_nth n d pos i r M I) as Q. ftypes.
    rewrite Q, Lg, Ll, Nat.eqb_refl. reflexivity. }
  exists pos', low, high. split. { rewrite (random_eq n d) by auto. rewrite E. reflexivity. }
  split. { eapply shape_eq_matrix; [|exact M]. eapply (random_shape (N := F64num)); [|exact E]. eapply fit_box; eauto. }
  split; [exact L1|]. split; [exact G1|]. split; [exact L2|]. split; [exact G2|].
  intros i r R. eexists. split. { exact (nth_map_some _ _ _ _ R). } cbv beta.
  pose proof (row_lower_spec d b r B) as RL. pose proof (row_greater_spec d b r B) as RG.
  destruct (row_lower r b), (row_greater r b); repeat split; intros; auto; exfalso;
  repeat match goal with
  | H : ~ below b r |- _ => apply H; apply RL; reflexivity
  | H : ~ above b r |- _ => apply H; apply RG; reflexivity
  | H : below b r |- _ => apply RL in H; discriminate
  | H : above b r |- _ => apply RG in H; discriminate
  end.
Qed.

(** *** intermediate *)
Lemma intermediate_claim : forall n d dr (b : bounds F64num) pos mem, is_matrix n d pos -> is_matrix n d mem -> box_dim d b -> b_arr b = true ->
  exists pos', bh_call "intermediate" dr (Some mem) b pos = Ok (pos', Some pos') /\ is_matrix n d pos' /\
    forall i j x m l u, entry pos i j = Some x -> entry mem i j = Some m -> column b j l u ->
      ffinite l = true -> ffinite u = true -> fle l m = true -> fle m u = true ->
      ffinite (fadd m l) = true -> ffinite (fadd m u) = true ->
      exists x', entry pos' i j = Some x' /\
        (flt x l = false -> flt u x = false -> x' = x) /\
        (flt x l = true -> fle l x' = true /\ fle x' m = true) /\
        (flt u x = true -> fle m x' = true /\ fle x' u = true).
Proof.
  intros n d dr b pos mem M M' B A.
  set (pos' := map2 (fun x mr => map4 (intermediate_el (N := F64num)) x mr (b_lb b) (b_ub b)) pos mem).
  assert (E : intermediate (N := F64num) (Some mem) b pos = Ok pos').
  { unfold intermediate. rewrite A, (is_matrix_same_shape n d pos mem M M'). reflexivity. }
  exists pos'. split. { rewrite (intermediate_eq n d) by auto. rewrite E. reflexivity. }
  split. { eapply shape_eq_matrix; [|exact M]. eapply (intermediate_shape (N := F64num)); [|exact E]. eapply fit_box; eauto. }
  intros i j x m l u X Y C Fl Fu L1 L2 S1 S2. exists (intermediate_el (N := F64num) x m l u).
  split. { exact (entry_map4 (N := F64num) n d b pos mem _ i j x m l u M M' X Y C). }
  split. { apply (intermediate_in (N := F64num)). }
  assert (Fm : ffinite m = true) by (eapply fle_between; eauto). destruct dec_half as [Eh Fh].
  unfold intermediate_el, lower, greater. cbn [nlt nmul ndec nadd F64num].
  assert (X1 : flt x l = true -> flt u x = false) by (intros; forder).
  assert (X2 : flt u x = true -> flt x l = false) by (intros; forder).
  split; intros Q.
  - rewrite Q, (X1 Q). pose proof (fadd_round m l Fm Fl) as R. rewrite Rplus_comm in R.
    exact (midpoint_in l m _ Fl Fm L1 R S1 _ Eh Fh).
  - rewrite Q. pose proof (fadd_round m u Fm Fu) as R. exact (midpoint_in m u _ Fm Fu L2 R S2 _ Eh Fh).
Qed.
Lemma intermediate_exact : forall n d dr (b : bounds Rnum) pos mem, is_matrix n d pos -> is_matrix n d mem -> box_dim d b -> b_arr b = true ->
  exists pos', bh_call "intermediate" dr (Some mem) b pos = Ok (pos', Some pos') /\ is_matrix n d pos' /\
    forall i j x m l u, entry pos i j = Some x -> entry mem i j = Some m -> column b j l u -> (l <= u)%R ->
      exists x', entry pos' i j = Some x' /\
        ((l <= x <= u)%R -> x' = x) /\ ((x < l)%R -> x' = ((m + l) / 2)%R) /\ ((u < x)%R -> x' = ((m + u) / 2)%R).
Proof.
  intros n d dr b pos mem M M' B A.
  set (pos' := map2 (fun x mr => map4 (intermediate_el (N := Rnum)) x mr (b_lb b) (b_ub b)) pos mem).
  assert (E : intermediate (N := Rnum) (Some mem) b pos = Ok pos').
  { unfold intermediate. rewrite A, (is_matrix_same_shape n d pos mem M M'). reflexivity. }
  exists pos'. split. { rewrite (intermediate_eq n d) by auto. rewrite E. reflexivity. }
  split. { eapply shape_eq_matrix; [|exact M]. eapply (intermediate_shape (N := Rnum)); [|exact E]. eapply fit_box; eauto. }
  intros i j x m l u X Y C L. exists (intermediate_el (N := Rnum) x m l u).
  split. { exact (entry_map4 (N := Rnum) n d b pos mem _ i j x m l u M M' X Y C). }
  unfold intermediate_el, lower, greater. cbn [nlt nmul ndec nadd Rnum T] in *.
  rlt; cbv zeta; repeat split; intros; lra.
Qed.
