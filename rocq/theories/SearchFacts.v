(** Proofs about the searches. *)
From Coq Require Import String ZArith List Arith Bool Reals Lra Lia.
From Verif Require Import Prelude ListFacts F64 F64Facts F64More Num Np NpFacts Handlers Swarms Operators Generators Topology Optimizers
  Search Spec SpecHandlers SpecSearch RunFacts PbestFacts BinFacts.
Import ListNotations.
Local Open Scope string_scope.
Local Open Scope list_scope.
Local Open Scope nat_scope.

(** *** itertools.product *)
Definition sizes {A} (ls : list (list A)) : nat := fold_right (fun l n => length l * n) 1 ls.
Lemma concat_same : forall A B (f : A -> list B) k l, (forall x, length (f x) = k) -> length (concat (map f l)) = length l * k.
Proof. intros A B f k l H. induction l as [|x l IH]; simpl; auto. rewrite app_length, H, IH. reflexivity. Qed.
Lemma product_length : forall A (ls : list (list A)), length (product ls) = sizes ls.
Proof.
  intros A ls. induction ls as [|l ls IH]; simpl; auto. rewrite (concat_same _ _ _ (length (product ls))).
  - rewrite IH. reflexivity.
  - intros x. apply map_length.
Qed.
Lemma nth_concat_same : forall A B (f : A -> list B) k l i j x, (forall x, length (f x) = k) -> nth_error l i = Some x -> j < k ->
  nth_error (concat (map f l)) (i * k + j) = nth_error (f x) j.
Proof.
  intros A B f k l. induction l as [|y l IH]; intros i j x H E J; [destruct i; discriminate|].
  destruct i as [|i]; simpl in E.
  - injection E as ->. simpl. apply nth_error_app1. rewrite H. exact J.
  - simpl map. simpl concat. rewrite nth_error_app2; rewrite H; [|simpl; lia].
    replace (S i * k + j - k) with (i * k + j) by (simpl; lia). apply IH; auto.
Qed.
(** Position of an index tuple. *)
Fixpoint rank (lens idx : list nat) : nat :=
  match lens, idx with
  | _ :: ls, i :: r => i * fold_right Nat.mul 1 ls + rank ls r
  | _, _ => 0
  end.
Lemma rank_lt : forall lens idx, Forall2 (fun l i => i < l) lens idx -> rank lens idx < fold_right Nat.mul 1 lens.
Proof.
  intros lens idx H. induction H as [|l i lens idx Hi H IH]; simpl; [lia|].
  apply Nat.lt_le_trans with (i * fold_right Nat.mul 1 lens + fold_right Nat.mul 1 lens); [lia|].
  replace (i * fold_right Nat.mul 1 lens + fold_right Nat.mul 1 lens) with (S i * fold_right Nat.mul 1 lens) by (simpl; lia).
  apply Nat.mul_le_mono_r. lia.
Qed.
Lemma rank_inj : forall lens idx idx', Forall2 (fun l i => i < l) lens idx -> Forall2 (fun l i => i < l) lens idx' ->
  rank lens idx = rank lens idx' -> idx = idx'.
Proof.
  intros lens idx idx' H. revert idx'. induction H as [|l i lens idx Hi H IH]; intros idx' H'; inversion H' as [|l' i' lens' r' Hi' Hr']; subst; auto.
  simpl. intros E. pose proof (rank_lt _ _ H) as L1. pose proof (rank_lt _ _ Hr') as L2.
  set (P := fold_right Nat.mul 1 lens) in *.
  assert (Q : i = i').
  { assert (E1 : (i * P + rank lens idx) / P = i) by (rewrite Nat.div_add_l by lia; rewrite Nat.div_small; lia).
    assert (E2 : (i' * P + rank lens r') / P = i') by (rewrite Nat.div_add_l by lia; rewrite Nat.div_small; lia).
    rewrite <- E1, <- E2, E. reflexivity. }
  subst i'. f_equal. apply IH; auto. lia.
Qed.
Lemma rank_surj : forall lens t, t < fold_right Nat.mul 1 lens -> exists idx, Forall2 (fun l i => i < l) lens idx /\ rank lens idx = t.
Proof.
  induction lens as [|l lens IH]; simpl; intros t H.
  - exists []. split; [constructor|]. simpl. lia.
  - set (P := fold_right Nat.mul 1 lens) in *. assert (PP : P <> 0) by (intros Z; rewrite Z in H; lia).
    destruct (IH (t mod P)) as (idx & V & R). { apply Nat.mod_upper_bound. exact PP. }
    exists (t / P :: idx). split.
    + constructor; auto. apply Nat.div_lt_upper_bound; auto. lia.
    + simpl. fold P. rewrite R. rewrite (Nat.div_mod t P PP) at 3. lia.
Qed.
Lemma product_nth : forall A (ls : list (list A)) idx, Forall2 (fun l i => i < length l) ls idx ->
  exists t, nth_error (product ls) (rank (map (@length A) ls) idx) = Some t /\ Forall2 (fun p x => nth_error (fst p) (snd p) = Some x) (combine ls idx) t.
Proof.
  intros A ls idx H. induction H as [|l i ls idx Hi H IH]; simpl.
  - exists []. split; auto.
  - destruct IH as (t & E & F). destruct (nth_error_ex l i Hi) as [x X].
    exists (x :: t). split; [|constructor; auto].
    assert (PL : fold_right Nat.mul 1 (map (@length A) ls) = length (product ls)).
    { rewrite product_length. clear. induction ls as [|l ls IH]; simpl; auto. }
    rewrite PL. rewrite (nth_concat_same _ _ (fun x => map (fun t => x :: t) (product ls)) (length (product ls)) l i _ x); auto.
    + rewrite nth_error_map, E. reflexivity.
    + intros y. apply map_length.
    + apply nth_error_lt in E. exact E.
Qed.

(** *** C35 *)
Lemma items_length : forall x, length (items_of x) = n_candidates x. Proof. intros [l|v]; reflexivity. Qed.
Lemma items_nth : forall x i v, nth_error (items_of x) i = Some v -> candidate x i v.
Proof. intros [l|w] i v; simpl; auto. destruct i as [|[|i]]; simpl; try discriminate. intros H. injection H as <-. auto. Qed.
Lemma selection_lens : forall opts idx, selection opts idx <->
  Forall2 (fun l i => i < l) (map (@length (pyval F64num)) (map (fun p => items_of (snd p)) opts)) idx.
Proof.
  induction opts as [|p opts IH]; intros idx; split; intros H; inversion H; subst; simpl; constructor.
  - rewrite items_length. auto.
  - apply IH. auto.
  - rewrite <- items_length. auto.
  - apply IH. auto.
Qed.
Lemma combine_pick : forall A (l : list (list A)) (m : list nat) t a b v j,
  Forall2 (fun p x => nth_error (fst p) (snd p) = Some x) (combine l m) t ->
  nth_error l j = Some a -> nth_error m j = Some b -> nth_error t j = Some v -> nth_error a b = Some v.
Proof.
  intros A. induction l as [|a' l IH]; intros [|b' m] t a b v [|j] H L M T; try discriminate; cbn [combine] in H;
    inversion H as [|p x pr xr P1 P2]; subst; simpl in *.
  - congruence.
  - eapply IH; eauto.
Qed.
Lemma grid_claim : forall opts : dict gval, opts <> [] ->
  exists grid pos, grid_search opts = Ok grid /\ length grid = n_selections opts /\
    (forall idx, selection opts idx -> exists g, nth_error grid (pos idx) = Some g /\ selects opts idx g) /\
    (forall idx idx', selection opts idx -> selection opts idx' -> pos idx = pos idx' -> idx = idx') /\
    (forall t, t < length grid -> exists idx, selection opts idx /\ pos idx = t).
Proof.
  intros opts NE. set (ls := map (fun p => items_of (snd p)) opts). set (lens := map (@length (pyval F64num)) ls).
  exists (map (fun x => combine (map fst opts) x) (product ls)), (rank lens).
  assert (PL : length (product ls) = fold_right Nat.mul 1 lens).
  { rewrite product_length. unfold lens. clear. induction ls as [|l ls IH]; simpl; auto. }
  assert (PS : fold_right Nat.mul 1 lens = n_selections opts).
  { unfold lens, ls, n_selections. clear. induction opts as [|p opts IH]; simpl; auto. rewrite IH, items_length. reflexivity. }
  split. { unfold grid_search. destruct opts; [congruence|reflexivity]. }
  split. { rewrite map_length, PL. exact PS. }
  split; [|split].
  - intros idx S. pose proof S as S0. apply selection_lens in S. fold ls in S.
    assert (S' : Forall2 (fun (l : list (pyval F64num)) i => i < length l) ls idx).
    { unfold lens in *. revert S. generalize ls. clear. intros ls. revert idx. induction ls as [|l ls IH]; intros idx H; inversion H; subst; constructor; auto. }
    destruct (product_nth _ _ _ S') as (t & E & F). exists (combine (map fst opts) t). split.
    { rewrite nth_error_map. fold lens in E. rewrite E. reflexivity. }
    assert (LT : length t = length opts).
    { apply Forall2_len in F. apply Forall2_len in S'. rewrite combine_length in F. unfold ls in *. rewrite map_length in *. lia. }
    split.
    { revert LT. generalize t. clear. induction opts as [|p opts IH]; intros [|x t] L; simpl in *; auto; try lia. f_equal. apply IH. lia. }
    intros j key x i O I.
    assert (G : nth_error ls j = Some (items_of x)) by (unfold ls; rewrite nth_error_map, O; reflexivity).
    destruct (nth_error_ex t j) as [v V]. { rewrite LT. apply nth_error_lt in O. exact O. }
    exists v. split.
    + assert (GG : forall A B (l : list A) (m : list B) a b j, nth_error l j = Some a -> nth_error m j = Some b -> nth_error (combine l m) j = Some (a, b)).
      { clear. induction l as [|a' l IH]; intros [|b' m] a b [|j]; simpl; intros; try discriminate; try congruence. apply IH; auto. }
      apply GG; auto. rewrite nth_error_map, O. reflexivity.
    + apply items_nth. 
      eapply combine_pick; eauto.
  - intros idx idx' S S' E. apply selection_lens in S, S'. eapply rank_inj; eauto.
  - intros t T. rewrite map_length, PL in T. destruct (rank_surj _ _ T) as (idx & V & R). exists idx. split; auto. apply selection_lens. exact V.
Qed.
Lemma grid_empty : grid_search [] = Err IndexError.
Proof. reflexivity. Qed.

(** *** C36 *)
Definition best_so_far (better : f64 -> f64 -> bool) (pre : list f64) (b : nat * f64) : Prop :=
  nth_error pre (fst b) = Some (snd b) /\
  (forall i x, nth_error pre i = Some x -> better x (snd b) = false) /\
  (forall i x, i < fst b -> nth_error pre i = Some x -> better (snd b) x = true).
Lemma pick_spec : forall better, (forall x y z, fisnan x = false -> fisnan y = false -> fisnan z = false ->
    better x z = true -> better y z = false -> better x y = true) ->
  (forall x y, better x y = true -> better y x = false) ->
  forall l pre b, no_nan (pre ++ l) -> best_so_far better pre b -> best_so_far better (pre ++ l) (pick better b (length pre) l).
Proof.
  intros better W AS. induction l as [|x l IH]; intros pre b NN B.
  - rewrite app_nil_r. exact B.
  - cbn [pick]. replace (pre ++ x :: l) with ((pre ++ [x]) ++ l) in * by (rewrite <- app_assoc; reflexivity).
    replace (S (length pre)) with (length (pre ++ [x])) by (rewrite app_length; simpl; lia).
    assert (N : forall y, In y (pre ++ [x]) -> fisnan y = false). { intros y I. apply NN. apply in_or_app. auto. }
    apply IH; auto. destruct B as (B1 & B2 & B3).
    assert (Nx : fisnan x = false) by (apply N; apply in_or_app; right; left; reflexivity).
    assert (Np : forall i y, nth_error pre i = Some y -> fisnan y = false). { intros i y Y. apply N. apply in_or_app. left. eapply nth_error_In; eauto. }
    assert (Nb : fisnan (snd b) = false) by eauto.
    destruct (better x (snd b)) eqn:E; split; cbn [fst snd].
    + apply nth_error_snoc_last.
    + assert (S : forall i y, nth_error pre i = Some y -> better x y = true).
      { intros i y Y. apply (W x y (snd b)); eauto. }
      split.
      * intros i y Y. apply nth_error_snoc in Y. destruct Y as [Y|[_ ->]]; [apply AS; eauto|].
        destruct (better x x) eqn:Q; auto. pose proof (AS _ _ Q). congruence.
      * intros i y L Y. rewrite nth_error_app1 in Y by exact L. eauto.
    + rewrite nth_error_app1; auto. apply nth_error_lt in B1. exact B1.
    + split.
      * intros i y Y. apply nth_error_snoc in Y. destruct Y as [Y|[_ ->]]; eauto.
      * intros i y L Y. apply nth_error_lt in B1 as L1. rewrite nth_error_app1 in Y by lia. eauto.
Qed.
Lemma flt_weak : forall x y z, fisnan x = false -> fisnan y = false -> fisnan z = false -> flt x z = true -> flt y z = false -> flt x y = true.
Proof. intros. forder. Qed.
Lemma flt_asym : forall x y, flt x y = true -> flt y x = false. Proof. intros. forder. Qed.
Lemma py_opt_spec : forall (mx : bool) l, no_nan l -> l <> [] -> exists b, py_opt (fun x y => if mx then flt y x else flt x y) l = Ok b /\
  best_so_far (fun x y => if mx then flt y x else flt x y) l b.
Proof.
  intros mx [|x l] NN H; [congruence|]. eexists. split; [reflexivity|]. apply (pick_spec _) with (pre := [x]) (l := l) (b := (0, x)).
  - destruct mx; intros; forder.
  - destruct mx; intros; forder.
  - exact NN.
  - split; [reflexivity|]. split.
    + intros [|[|i]] y Y; try discriminate. injection Y as ->. assert (flt y y = false) by (destruct (flt y y) eqn:Q; auto; apply flt_asym in Q as Q'; congruence). destruct mx; auto.
    + cbn. lia.
Qed.
Lemma py_opt_ext : forall f g l, (forall x y, f x y = g x y) -> py_opt f l = py_opt g l.
Proof.
  intros f g [|x l] H; auto. cbn. f_equal. generalize (0, x) 1. revert l. induction l as [|y l IH]; intros b i; auto.
  cbn. rewrite H. apply IH.
Qed.
Lemma scores_of : forall (score : nat -> popts -> res f64) grid scores,
  mapM (fun p => score (fst p) (snd p)) (combine (seq 0 (length grid)) grid) = Ok scores <-> scored score grid scores.
Proof.
  intros score grid scores. rewrite mapM_Ok. unfold scored.
  assert (G : forall k, Forall2 (fun p s => score (fst p) (snd p) = Ok s) (combine (seq k (length grid)) grid) scores <->
     length scores = length grid /\ forall i g s, nth_error grid i = Some g -> nth_error scores i = Some s -> score (k + i) g = Ok s).
  { revert scores. induction grid as [|g grid IH]; intros scores k; cbn [length seq combine].
    - split; intros H.
      + inversion H. split; auto. intros [|i]; discriminate.
      + destruct scores; [constructor|]. destruct H. discriminate.
    - split; intros H.
      + inversion H as [|p s ps ss H1 H2]; subst. apply IH in H2. destruct H2 as [L H2]. split; [simpl; lia|].
        intros [|i] g' s' G S; simpl in *.
        * injection G as <-. injection S as <-. rewrite Nat.add_0_r. exact H1.
        * rewrite Nat.add_succ_r. apply H2; auto.
      + destruct H as [L H]. destruct scores as [|s scores]; [discriminate|]. constructor.
        * cbn. specialize (H 0 g s eq_refl eq_refl). rewrite Nat.add_0_r in H. exact H.
        * apply IH. split; [simpl in L; lia|]. intros i g' s' G0 S0. specialize (H (S i) g' s' G0 S0). rewrite Nat.add_succ_r in H. exact H. }
  exact (G 0).
Qed.
(** Every entry is scored once; the answer is the first best one. *)
Lemma search_claim : forall maximum (score : nat -> popts -> res f64) grid s g, search maximum score grid = Ok (s, g) ->
  exists scores, scored score grid scores /\
    (no_nan scores -> exists idx, nth_error grid idx = Some g /\ nth_error scores idx = Some s /\
       (forall i x, nth_error scores i = Some x -> if maximum then fle x s = true else fle s x = true) /\
       (forall i x, i < idx -> nth_error scores i = Some x -> if maximum then flt x s = true else flt s x = true)).
Proof.
  unfold search. intros maximum score grid s g H. apply bind_Ok in H. destruct H as (scores & S & H). apply scores_of in S.
  exists scores. split; auto. intros NN. apply bind_Ok in H. destruct H as (m & M & H). apply bind_Ok in H. destruct H as (b & B & H).
  apply bind_Ok in H. destruct H as (g' & G & H). injection H as <- <-.
  assert (NE : scores <> []). { intros ->. discriminate. }
  destruct (py_opt_spec maximum scores NN NE) as (b' & B' & (P1 & P2 & P3)).
  assert (E : b = b').
  { destruct maximum.
    - pose proof (eq_trans (eq_sym B) B') as Q. injection Q as ->. reflexivity.
    - injection B as <-. pose proof (eq_trans (eq_sym M) B') as Q. injection Q as ->. reflexivity. }
  subst b'. exists (fst b). destruct (nth_error grid (fst b)) eqn:Gb; [|discriminate]. injection G as ->.
  assert (Nb : fisnan (snd b) = false) by (apply NN; eapply nth_error_In; eauto).
  split; auto. split; auto. split.
  - intros i x X. specialize (P2 i x X). assert (fisnan x = false) by (apply NN; eapply nth_error_In; eauto). destruct maximum; forder.
  - intros i x L X. specialize (P3 i x L X). destruct maximum; exact P3.
Qed.
Lemma search_total : forall maximum (score : nat -> popts -> res f64) grid, grid <> [] ->
  (forall i g, nth_error grid i = Some g -> exists s, score i g = Ok s) -> exists r, search maximum score grid = Ok r.
Proof.
  intros maximum score grid NE H.
  assert (S : exists scores, scored score grid scores).
  { assert (G : forall k grid, (forall i g, nth_error grid i = Some g -> exists s, score (k + i) g = Ok s) ->
      exists scores, length scores = length grid /\ forall i g s, nth_error grid i = Some g -> nth_error scores i = Some s -> score (k + i) g = Ok s).
    { clear. intros k grid. revert k. induction grid as [|g grid IH]; intros k H.
      - exists []. split; auto. intros [|i]; discriminate.
      - destruct (IH (S k)) as (ss & L & Q). { intros i g' G. specialize (H (S i) g' G). rewrite Nat.add_succ_r in H. exact H. }
        destruct (H 0 g eq_refl) as [s E]. exists (s :: ss). split; [simpl; lia|]. intros [|i] g' s' G0 S0; simpl in *.
        + injection G0 as <-. injection S0 as <-. rewrite Nat.add_0_r in *. exact E.
        + specialize (Q i g' s' G0 S0). rewrite Nat.add_succ_r. exact Q. }
    exact (G 0 grid H). }
  destruct S as (scores & S). unfold search. rewrite (proj2 (scores_of score grid scores) S). cbn [bind].
  destruct S as [L _]. destruct scores as [|x l]; [destruct grid; [congruence|discriminate]|].
  assert (P : forall better, exists b, py_opt better (x :: l) = Ok b /\ fst b < length (x :: l)).
  { intros better. eexists. split; [reflexivity|].
    assert (G : forall l b i, fst b < i -> fst (pick better b i l) < i + length l).
    { clear. induction l as [|y l IH]; intros b i H; simpl; [lia|]. specialize (IH (if better y (snd b) then (i, y) else b) (S i)).
      destruct (better y (snd b)); simpl in *; lia. }
    apply (G l (0, x) 1). simpl. lia. }
  destruct (P flt) as (m & M & Lm). rewrite M. cbn [bind]. destruct (P (fun a b => flt b a)) as (b & B & Lb).
  assert (Q : exists b, (if maximum then py_opt (fun a b => flt b a) (x :: l) else Ok m) = Ok b /\ fst b < length (x :: l)).
  { destruct maximum; eauto. }
  destruct Q as (b' & -> & L'). cbn [bind]. rewrite L in L'. destruct (nth_error_ex grid (fst b') L') as [g ->]. cbn. eauto.
Qed.
Lemma search_empty : forall maximum score, search maximum score [] = Err ValueError.
Proof. reflexivity. Qed.
(** The error of a scorer ends the search. *)
Lemma search_error : forall maximum (score : nat -> popts -> res f64) grid i g x, nth_error grid i = Some g ->
  score i g = Err x -> (forall j h, j < i -> nth_error grid j = Some h -> exists s, score j h = Ok s) ->
  search maximum score grid = Err x.
Proof.
  intros maximum score grid i g x G E B. unfold search.
  assert (H : forall k grid i, nth_error grid i = Some g -> score (k + i) g = Err x ->
    (forall j h, j < i -> nth_error grid j = Some h -> exists s, score (k + j) h = Ok s) ->
    mapM (fun p => score (fst p) (snd p)) (combine (seq k (length grid)) grid) = Err x).
  { clear. intros k grid. revert k. induction grid as [|g0 grid IH]; intros k i G E B; [destruct i; discriminate|].
    cbn [length seq combine mapM fst snd]. destruct i as [|i]; simpl in G.
    - injection G as ->. rewrite Nat.add_0_r in E. rewrite E. reflexivity.
    - destruct (B 0 g0 ltac:(lia) eq_refl) as [s Es]. rewrite Nat.add_0_r in Es. rewrite Es. cbn [bind].
      rewrite (IH (S k) i G); [reflexivity| |].
      + rewrite Nat.add_succ_r in E. exact E.
      + intros j h J H. specialize (B (S j) h ltac:(lia) H). rewrite Nat.add_succ_r in B. exact B. }
  rewrite (H 0 grid i G E B). reflexivity.
Qed.
(** The answer is an entry of the grid with its score. *)
Lemma search_hit : forall maximum (score : nat -> popts -> res f64) grid s g, search maximum score grid = Ok (s, g) ->
  exists i, nth_error grid i = Some g /\ score i g = Ok s.
Proof.
  intros maximum score grid s g H. unfold search in H.
  apply bind_Ok in H. destruct H as (scores & S & H). apply scores_of in S.
  apply bind_Ok in H. destruct H as (m & M & H). apply bind_Ok in H. destruct H as (bb & B & H).
  apply bind_Ok in H. destruct H as (g' & G & H). injection H as <- <-.
  assert (P : forall better bst, py_opt better scores = Ok bst -> nth_error scores (fst bst) = Some (snd bst)).
  { intros better bst Q. destruct scores as [|x l]; [discriminate|]. injection Q as <-.
    assert (K : forall l pre bst, nth_error pre (fst bst) = Some (snd bst) ->
      nth_error (pre ++ l) (fst (pick better bst (length pre) l)) = Some (snd (pick better bst (length pre) l))).
    { clear. induction l as [|y l IH]; intros pre bst H; [rewrite app_nil_r; exact H|]. cbn [pick].
      replace (pre ++ y :: l) with ((pre ++ [y]) ++ l) by (rewrite <- app_assoc; reflexivity).
      replace (S (length pre)) with (length (pre ++ [y])) by (rewrite app_length; simpl; lia).
      apply IH. destruct (better y (snd bst)); cbn [fst snd].
      - apply nth_error_snoc_last.
      - rewrite nth_error_app1; auto. apply nth_error_lt in H. exact H. }
    apply (K l [x] (0, x)). reflexivity. }
  assert (X : nth_error scores (fst bb) = Some (snd bb)). { destruct maximum; [eapply P; eauto|]. injection B as <-. eapply P; eauto. }
  destruct (nth_error grid (fst bb)) as [g0|] eqn:Gb; [|discriminate]. injection G as ->.
  destruct S as [_ S]. exists (fst bb). split; [exact Gb|]. exact (S _ _ _ Gb X).
Qed.
(** All entries have a score. *)
Lemma search_scored : forall maximum (score : nat -> popts -> res f64) grid r, search maximum score grid = Ok r ->
  forall i g, nth_error grid i = Some g -> exists s, score i g = Ok s.
Proof.
  intros maximum score grid r H i g G. unfold search in H. apply bind_Ok in H. destruct H as (scores & S & _). apply scores_of in S.
  destruct S as [L S]. destruct (nth_error_ex scores i) as [s E]. { rewrite L. apply nth_error_lt in G. exact G. } exists s. eauto.
Qed.

(** *** C37 *)
Lemma dpop_spec : forall V (d : dict V) k, match dpop d k with
  | None => dget d k = None
  | Some (v, d') => dget d k = Some v /\ (NoDup (dkeys d) -> dget d' k = None) /\ (forall k', k' <> k -> dget d' k' = dget d k') /\
      (forall k', In k' (dkeys d') -> In k' (dkeys d)) /\ (NoDup (dkeys d) -> NoDup (dkeys d')) end.
Proof.
  intros V d k. induction d as [|[k0 v0] d IH]; [reflexivity|]. cbn [dpop dget].
  destruct (String.eqb_spec k k0) as [->|NE].
  - split; auto. split. { intros N. inversion N as [|? ? N1 N2]; subst. destruct (dget d k0) eqn:Q; auto. exfalso. apply N1.
      clear -Q. induction d as [|[k1 v1] d IH]; [discriminate|]. cbn in *. destruct (String.eqb_spec k0 k1); auto. }
    split. { intros k' N'. apply String.eqb_neq in N'. rewrite N'. reflexivity. }
    split. { intros k' I. right. exact I. } intros N. inversion N; auto.
  - destruct (dpop d k) as [[v d']|]; auto. destruct IH as (A & B & C & D & E). split; auto. split.
    { intros N. inversion N as [|? ? N1 N2]; subst. cbn [dget]. apply String.eqb_neq in NE. rewrite NE. auto. }
    split. { intros k' N'. cbn [dget]. destruct (String.eqb k' k0); auto. }
    split. { intros k' [<-|I]; [left; reflexivity|right; auto]. }
    intros N. inversion N as [|? ? N1 N2]; subst. constructor; auto.
Qed.
Lemma columns_get : forall dr n opts params, random_columns dr n opts = Ok params -> forall key,
  match dget opts key with
  | None => dget params key = None
  | Some b => exists c, dget params key = Some c /\ random_column dr n key b = Ok c
  end.
Proof.
  intros dr n. induction opts as [|[k b] opts IH]; intros params H key; cbn [random_columns] in H.
  - injection H as <-. reflexivity.
  - apply bind_Ok in H. destruct H as (c & C & H). apply bind_Ok in H. destruct H as (cs & CS & H). injection H as <-.
    cbn [dget]. destruct (String.eqb_spec key k) as [->|NE]; eauto. apply IH. exact CS.
Qed.
Lemma uniform_nth : forall lo hi u n l i x, np_uniform lo hi u n = Ok l -> nth_error l i = Some x -> x = fadd lo (fmul (fsub hi lo) (u i)) /\ ffinite (fsub hi lo) = true.
Proof.
  unfold np_uniform. intros lo hi u n l i x H X. destruct (ffinite (fsub hi lo)); [|discriminate]. injection H as <-.
  apply nth_map_inv in X. destruct X as (k & K & ->). assert (k = i).
  { apply nth_error_lt in K as L. rewrite seq_length in L. rewrite (nth_error_nth' _ 0) in K by (rewrite seq_length; exact L). injection K as <-. apply seq_nth. exact L. }
  subst. auto.
Qed.
Lemma random_column_float : forall dr n key b c i v, In key ["c1"; "c2"; "w"] -> random_column dr n key b = Ok c -> nth_error c i = Some v ->
  exists lo hi, b = RPair lo hi /\ ffinite (fsub (pnum hi) (pnum lo)) = true /\
    v = PFloat (fadd (pnum lo) (fmul (fsub (pnum hi) (pnum lo)) (rs_unit dr key i)) : F64num).
Proof.
  intros dr n key b c i v I H V.
  assert (Q : String.eqb key "c1" || String.eqb key "c2" || String.eqb key "w" = true).
  { destruct I as [<-|[<-|[<-|[]]]]; reflexivity. }
  unfold random_column in H. rewrite Q in H. destruct b as [lo hi|]; [|discriminate]. apply bind_Ok in H. destruct H as (l & L & H).
  injection H as <-. apply nth_map_inv in V. destruct V as (x & X & ->). destruct (uniform_nth _ _ _ _ _ _ _ L X) as [-> F].
  exists lo, hi. auto.
Qed.
Lemma random_column_int : forall dr n b c i v, random_column dr n "k" b = Ok c -> nth_error c i = Some v ->
  exists lo hi z, b = RPair (PInt lo) (PInt hi) /\ v = PInt z /\ (lo <= z < hi)%Z.
Proof.
  intros dr n b c i v H V. cbn in H. destruct b as [[lo|] [hi|]|]; try discriminate.
  unfold np_randint in H. destruct (Z.leb_spec hi lo); [discriminate|]. cbn in H. injection H as <-.
  apply nth_map_inv in V. destruct V as (z & Z1 & ->). apply nth_map_inv in Z1. destruct Z1 as (k & _ & ->).
  exists lo, hi. eexists. split; [reflexivity|]. split; [reflexivity|].
  pose proof (Z.mod_pos_bound (rs_int dr k) (hi - lo)). lia.
Qed.
Lemma random_grid_claim : forall dr n (opts : dict rval) grid, NoDup (dkeys opts) ->
  (forall key i, fle fzero (rs_unit dr key i) = true /\ flt (rs_unit dr key i) fone = true) ->
  (forall key lo hi, In key ["c1"; "c2"; "w"] -> dget opts key = Some (RPair lo hi) ->
     ffinite (pnum lo) = true /\ ffinite (pnum hi) = true /\ fle (pnum lo) (pnum hi) = true) ->
  snd (random_search dr n opts) = Ok grid ->
  length grid = n /\ forall g, In g grid -> dkeys g = ["c1"; "c2"; "w"; "k"; "p"] /\
    (forall key, In key ["c1"; "c2"; "w"] -> exists lo hi x, dget opts key = Some (RPair lo hi) /\ dget g key = Some (PFloat x) /\
       fle (pnum lo) x = true /\ fle x (pnum hi) = true) /\
    (exists lo hi z, dget opts "k" = Some (RPair (PInt lo) (PInt hi)) /\ dget g "k" = Some (PInt z) /\ (lo <= z < hi)%Z) /\
    (exists p, dget opts "p" = Some (RNum p) /\ dget g "p" = Some p).
Proof.
  intros dr n opts grid ND U FR0 H. cbn [random_search snd] in H. pose proof (dpop_spec _ opts "p") as DP.
  destruct (dpop opts "p") as [[[lo hi|p] opts']|]; try discriminate. destruct DP as (P1 & P2 & P3 & _).
  apply bind_Ok in H. destruct H as (params & C & H). apply mapM_Ok in H. split.
  { apply Forall2_len in H. rewrite seq_length in H. symmetry. exact H. }
  intros g I. apply In_nth_error in I. destruct I as [t T].
  assert (R : exists i, random_row params p i = Ok g).
  { clear -H T. revert t T. induction H; intros [|t] T; try discriminate; simpl in T.
    - injection T as ->. eauto.
    - eapply IHForall2; eauto. }
  destruct R as (i & R). unfold random_row in R.
  apply bind_Ok in R. destruct R as (c1 & R1 & R). apply bind_Ok in R. destruct R as (c2 & R2 & R).
  apply bind_Ok in R. destruct R as (w & R3 & R). apply bind_Ok in R. destruct R as (k & R4 & R). injection R as <-.
  assert (AT : forall key v, key <> "p" -> at_key params key i = Ok v -> exists b c, dget opts key = Some b /\ random_column dr n key b = Ok c /\ nth_error c i = Some v).
  { intros key v NE A. unfold at_key in A. apply bind_Ok in A. destruct A as (c & A1 & A2). pose proof (columns_get _ _ _ _ C key) as G.
    destruct (dget params key) as [c'|] eqn:Q; [|discriminate]. injection A1 as ->. rewrite (P3 _ NE) in G.
    destruct (dget opts key) as [b|]; [|congruence]. destruct G as (c' & G1 & G2). injection G1 as <-.
    exists b, c. split; auto. split; auto. destruct (nth_error c i); [|discriminate]. injection A2 as ->. reflexivity. }
  assert (FL : forall key v, In key ["c1"; "c2"; "w"] -> at_key params key i = Ok v -> exists lo hi x, dget opts key = Some (RPair lo hi) /\ v = PFloat x /\
       fle (pnum lo) x = true /\ fle x (pnum hi) = true).
  { intros key v I A. assert (NE : key <> "p") by (destruct I as [<-|[<-|[<-|[]]]]; discriminate).
    destruct (AT key v NE A) as (b & c & B & Cc & V). destruct (random_column_float _ _ _ _ _ _ _ I Cc V) as (lo & hi & -> & F & ->).
    destruct (FR0 key lo hi I B) as (F1 & F2 & F3). destruct (U key i) as [U1 U2]. destruct (unit_draw _ U1 U2) as [Fu Ru].
    destruct (draw_in_r (pnum lo) (pnum hi) (rs_unit dr key i) F1 F2 F3 F Fu Ru) as [X1 X2].
    exists lo, hi. eexists. split; [exact B|]. split; [reflexivity|]. split; assumption. }
  split; [reflexivity|]. split; [|split].
  - intros key [<-|[<-|[<-|[]]]].
    + destruct (FL "c1" c1 ltac:(cbn; auto) R1) as (lo & hi & x & A & -> & B). exists lo, hi, x. auto.
    + destruct (FL "c2" c2 ltac:(cbn; auto) R2) as (lo & hi & x & A & -> & B). exists lo, hi, x. auto.
    + destruct (FL "w" w ltac:(cbn; auto) R3) as (lo & hi & x & A & -> & B). exists lo, hi, x. auto.
  - destruct (AT "k" k ltac:(discriminate) R4) as (b & c & B & Cc & V).
    destruct (random_column_int _ _ _ _ _ _ Cc V) as (lo & hi & z & -> & -> & Q). exists lo, hi, z. auto.
  - exists p. auto.
Qed.
(** The call leaves the caller's dict as it was, whatever happens: a second call sees the same options. *)
Lemma random_options_kept : forall dr n opts, fst (random_search dr n opts) = opts.
Proof. reflexivity. Qed.
(** Good options always give a grid. *)
Lemma random_grid_total : forall dr n (opts : dict rval) p klo khi, NoDup (dkeys opts) ->
  dget opts "p" = Some (RNum p) -> dget opts "k" = Some (RPair (PInt klo) (PInt khi)) -> (klo < khi)%Z ->
  (forall key, In key ["c1"; "c2"; "w"] -> exists lo hi, dget opts key = Some (RPair lo hi) /\ ffinite (fsub (pnum hi) (pnum lo)) = true) ->
  (forall key, In key (dkeys opts) -> In key ["c1"; "c2"; "w"; "k"; "p"]) ->
  exists grid, snd (random_search dr n opts) = Ok grid.
Proof.
  intros dr n opts p klo khi ND P K KL F KS. cbn [random_search snd]. pose proof (dpop_spec _ opts "p") as DP.
  destruct (dpop opts "p") as [[v opts']|]; [|congruence]. destruct DP as (P1 & P2 & P3 & P4 & P5). rewrite P in P1. injection P1 as <-.
  specialize (P2 ND). specialize (P5 ND).
  assert (COL : forall key b, dget opts' key = Some b -> In key (dkeys opts') -> exists c, random_column dr n key b = Ok c /\ length c = n).
  { intros key b B I. assert (NE : key <> "p"). { intros ->. congruence. }
    rewrite (P3 _ NE) in B. unfold random_column.
    assert (U : In key ["c1"; "c2"; "w"] -> exists c, random_column dr n key b = Ok c /\ length c = n).
    { intros J. destruct (F key J) as (lo & hi & B' & W). rewrite B in B'. injection B' as ->. unfold random_column.
      assert (Q : String.eqb key "c1" || String.eqb key "c2" || String.eqb key "w" = true). { destruct J as [<-|[<-|[<-|[]]]]; reflexivity. }
      rewrite Q. unfold np_uniform. rewrite W. cbn [bind]. eexists. split; [reflexivity|]. rewrite !map_length. apply seq_length. }
    destruct (KS key (P4 key I)) as [<-|[<-|[<-|[<-|[<-|[]]]]]].
    - apply U. cbn. auto.
    - apply U. cbn. auto.
    - apply U. cbn. auto.
    - cbn [String.eqb Ascii.eqb orb]. rewrite K in B. injection B as <-. cbn. unfold np_randint. destruct (Z.leb_spec khi klo); [lia|]. cbn [bind].
      eexists. split; [reflexivity|]. rewrite !map_length. apply seq_length.
    - congruence. }
  assert (CS : exists params, random_columns dr n opts' = Ok params /\ forall key b, dget opts' key = Some b -> exists c, dget params key = Some c /\ length c = n).
  { clear -COL P5. induction opts' as [|[key b] opts' IH]; [exists []; split; [reflexivity|discriminate]|].
    cbn [random_columns]. inversion P5 as [|? ? N1 N2]; subst.
    destruct (COL key b) as (c & C & L). { cbn. rewrite String.eqb_refl. reflexivity. } { left. reflexivity. }
    rewrite C. cbn [bind]. destruct IH as (params & PR & G); auto.
    { intros key' b' B I. apply COL; [|right; exact I]. cbn [dget]. destruct (String.eqb_spec key' key) as [->|]; auto. contradiction. }
    rewrite PR. cbn [bind]. eexists. split; [reflexivity|]. intros key' b' B. cbn [dget] in *. destruct (String.eqb key' key); eauto. }
  destruct CS as (params & -> & G). cbn [bind].
  assert (AT : forall key i, In key ["c1"; "c2"; "w"; "k"] -> i < n -> exists v, at_key params key i = Ok v).
  { intros key i J I. assert (Q : exists b, dget opts' key = Some b).
    { assert (NE : key <> "p") by (destruct J as [<-|[<-|[<-|[<-|[]]]]]; discriminate). rewrite (P3 _ NE).
      destruct J as [<-|[<-|[<-|[<-|[]]]]].
      - destruct (F "c1") as (lo & hi & -> & _); [cbn; auto|eauto].
      - destruct (F "c2") as (lo & hi & -> & _); [cbn; auto|eauto].
      - destruct (F "w") as (lo & hi & -> & _); [cbn; auto|eauto].
      - rewrite K. eauto. }
    destruct Q as (b & B). destruct (G key b B) as (c & C & L). unfold at_key. rewrite C. cbn [of_option bind].
    destruct (nth_error_ex c i) as [v V]; [lia|]. rewrite V. cbn. eauto. }
  assert (R : forall i, In i (seq 0 n) -> exists g, random_row params p i = Ok g).
  { intros i I. apply in_seq in I. unfold random_row.
    destruct (AT "c1" i) as [v1 ->]; [cbn; auto|lia|]. destruct (AT "c2" i) as [v2 ->]; [cbn; auto|lia|].
    destruct (AT "w" i) as [v3 ->]; [cbn; auto|lia|]. destruct (AT "k" i) as [v4 ->]; [cbn; auto|lia|]. cbn. eauto. }
  revert R. generalize (seq 0 n). clear. induction l as [|i l IH]; intros R; [exists []; reflexivity|]. cbn [mapM].
  destruct (R i) as [g ->]; [left; reflexivity|]. cbn [bind]. destruct IH as [gs ->]; [intros j J; apply R; right; exact J|]. cbn. eauto.
Qed.
(** Errors: no [p], an unknown key, or (when something is to be generated) a missing key. *)
Lemma random_missing_p : forall dr n (opts : dict rval), dget opts "p" = None -> snd (random_search dr n opts) = Err KeyError.
Proof.
  intros dr n opts H. cbn [random_search snd]. pose proof (dpop_spec _ opts "p") as DP. destruct (dpop opts "p") as [[v opts']|]; auto.
  destruct DP as (P1 & _). congruence.
Qed.
Lemma random_missing_key : forall dr n (opts : dict rval) key, In key ["c1"; "c2"; "w"; "k"] -> dget opts key = None -> 0 < n ->
  exists x, snd (random_search dr n opts) = Err x.
Proof.
  intros dr n opts key J D N. cbn [random_search snd]. pose proof (dpop_spec _ opts "p") as DP.
  destruct (dpop opts "p") as [[[lo hi|p] opts']|]; try solve [eexists; reflexivity]. destruct DP as (P1 & P2 & P3 & _).
  destruct (random_columns dr n opts') as [params|x] eqn:C; [|eexists; reflexivity]. cbn [bind].
  assert (NE : key <> "p") by (destruct J as [<-|[<-|[<-|[<-|[]]]]]; discriminate).
  pose proof (columns_get _ _ _ _ C key) as G. rewrite (P3 _ NE), D in G.
  destruct (mapM (random_row params p) (seq 0 n)) as [grid|x] eqn:M; [|eauto]. exfalso.
  destruct n as [|n]; [lia|]. cbn [seq mapM] in M. apply bind_Ok in M. destruct M as (g & R & _). unfold random_row in R.
  assert (A : at_key params key 0 = Err KeyError) by (unfold at_key; rewrite G; reflexivity).
  apply bind_Ok in R. destruct R as (c1 & R1 & R). apply bind_Ok in R. destruct R as (c2 & R2 & R).
  apply bind_Ok in R. destruct R as (w & R3 & R). apply bind_Ok in R. destruct R as (k & R4 & R).
  destruct J as [<-|[<-|[<-|[<-|[]]]]]; congruence.
Qed.
(** When all present ranges can be drawn from, the error is KeyError. *)
Lemma random_missing_error : forall dr n (opts : dict rval) p key, NoDup (dkeys opts) -> dget opts "p" = Some (RNum p) ->
  In key ["c1"; "c2"; "w"; "k"] -> dget opts key = None -> 0 < n ->
  (forall k b, dget opts k = Some b -> k <> "p" -> exists c, random_column dr n k b = Ok c) ->
  snd (random_search dr n opts) = Err KeyError.
Proof.
  intros dr n opts p key ND P J D N CO. cbn [random_search snd]. pose proof (dpop_spec _ opts "p") as DP.
  destruct (dpop opts "p") as [[v opts']|]; [|congruence]. destruct DP as (P1 & P2 & P3 & P4 & P5). rewrite P in P1. injection P1 as <-.
  assert (CO' : forall k b, dget opts' k = Some b -> exists c, random_column dr n k b = Ok c).
  { intros k b B. assert (NE : k <> "p"). { intros ->. rewrite P2 in B by exact ND. discriminate. } rewrite (P3 _ NE) in B. eauto. }
  assert (CS : exists params, random_columns dr n opts' = Ok params).
  { specialize (P5 ND). clear -CO' P5. induction opts' as [|[k b] opts' IH]; [eexists; reflexivity|]. cbn [random_columns].
    inversion P5 as [|? ? N1 N2]; subst.
    destruct (CO' k b) as [c ->]; [cbn; rewrite String.eqb_refl; reflexivity|]. cbn [bind]. destruct IH as [ps ->]; auto; [|cbn; eauto].
    intros k' b' B. apply CO'. cbn [dget]. destruct (String.eqb_spec k' k) as [->|]; auto. exfalso. apply N1.
    clear -B. induction opts' as [|[k1 v1] d IH]; [discriminate|]. cbn in *. destruct (String.eqb_spec k k1); auto. }
  destruct CS as (params & C). rewrite C. cbn [bind].
  assert (NE : key <> "p") by (destruct J as [<-|[<-|[<-|[<-|[]]]]]; discriminate).
  pose proof (columns_get _ _ _ _ C key) as G. rewrite (P3 _ NE), D in G.
  assert (AK : forall k, at_key params k 0 = Err KeyError \/ exists v, at_key params k 0 = Ok v).
  { intros k. unfold at_key. destruct (dget params k) as [c|] eqn:Q; [|left; reflexivity]. cbn [of_option bind]. right.
    pose proof (columns_get _ _ _ _ C k) as G'. destruct (dget opts' k) as [b|]; [|congruence]. destruct G' as (c' & Q' & RC). rewrite Q in Q'. injection Q' as <-.
    assert (L : length c = n).
    { clear -RC. unfold random_column in RC. destruct (String.eqb k "c1" || String.eqb k "c2" || String.eqb k "w").
      - destruct b; [|discriminate]. unfold np_uniform in RC. destruct (ffinite _); [|discriminate]. cbn in RC. injection RC as <-. rewrite !map_length. apply seq_length.
      - destruct (String.eqb k "k"); [|discriminate]. destruct b as [[?|?] [?|?]|]; try discriminate. unfold np_randint in RC. destruct (Z.leb _ _); [discriminate|]. cbn in RC. injection RC as <-. rewrite !map_length. apply seq_length. }
    destruct c; [cbn in L; lia|]. cbn. eauto. }
  assert (A : at_key params key 0 = Err KeyError) by (unfold at_key; rewrite G; reflexivity).
  destruct n as [|n]; [lia|]. cbn [seq mapM]. unfold random_row.
  destruct (AK "c1") as [->|[v1 E1]]; [reflexivity|]. rewrite E1. cbn [bind].
  destruct (AK "c2") as [->|[v2 E2]]; [reflexivity|]. rewrite E2. cbn [bind].
  destruct (AK "w") as [->|[v3 E3]]; [reflexivity|]. rewrite E3. cbn [bind].
  destruct (AK "k") as [->|[v4 E4]]; [reflexivity|]. 
  destruct J as [<-|[<-|[<-|[<-|[]]]]]; congruence.
Qed.
