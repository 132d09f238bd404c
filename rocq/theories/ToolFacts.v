(** Facts about the cost decorator (C29) and the plotters' numbers (C49). *)
From Coq Require Import String ZArith List Arith Bool Reals Lia Lra.
From Flocq Require Import Core IEEE754.BinarySingleNaN.
From Verif Require Import Prelude ListFacts F64 F64Facts Num Np NpFacts Handlers Swarms Operators Generators Topology Optimizers
  Spec SpecHandlers RunFacts RunMisc PbestFacts BinFacts Tools.
Import ListNotations.
Local Open Scope list_scope.
Local Open Scope nat_scope.

(** *** C29 *)
Lemma scalars_some : forall l cs, scalars l = Some cs <-> l = map Scalar cs.
Proof.
  induction l as [|v l IH]; intros cs; simpl.
  - split; intros H. { injection H as <-. reflexivity. } destruct cs; [reflexivity|discriminate].
  - destruct v as [c|a].
    + destruct (scalars l) as [ds|] eqn:E.
      * split; intros H. { injection H as <-. simpl. f_equal. apply IH. reflexivity. }
        destruct cs as [|d cs]; [discriminate|]. simpl in H. injection H as -> H. apply IH in H. congruence.
      * split; intros H; [discriminate|]. destruct cs as [|d cs]; [discriminate|]. simpl in H. injection H as -> H. apply IH in H. discriminate.
    + split; intros H; [discriminate|]. destruct cs; discriminate.
Qed.
Lemma cost_exact : forall f X cs, cost_dec f X = Ok cs <-> Forall2 (fun r c => f r = Ok (Scalar c)) X cs.
Proof.
  intros f X cs. unfold cost_dec. split.
  - intros H. apply bind_Ok in H. destruct H as (vs & V & H). apply mapM_Ok in V. unfold np_array in H. destruct (scalars vs) as [l|] eqn:E.
    + injection H as ->. apply scalars_some in E. subst vs. remember (map Scalar cs) as vs. revert cs Heqvs.
      induction V; intros [|c cs] Q; simpl in Q; try discriminate; constructor.
      * injection Q as -> _. assumption.
      * apply IHV. injection Q as _ ->. reflexivity.
    + destruct vs as [|[c|a] r]; try discriminate. destruct (forallb _ r); [|discriminate].
      destruct (nth_error X 0); [|discriminate]. cbn in H. destruct (f l); discriminate.
  - intros H. assert (E : mapM f X = Ok (map Scalar cs)).
    { induction H as [|r c X cs R H IH]; [reflexivity|]. cbn [mapM map]. rewrite R, IH. reflexivity. }
    rewrite E. cbn [bind]. unfold np_array. rewrite (proj2 (scalars_some _ _) eq_refl). reflexivity.
Qed.
Lemma cost_arrays : forall f X k, X <> [] -> (forall r, In r X -> exists a, f r = Ok (Arr a) /\ length a = k) -> cost_dec f X = Err ValueError.
Proof.
  intros f X k NE H.
  assert (E : exists vs, mapM f X = Ok (map Arr vs) /\ length vs = length X /\ Forall (fun a => length a = k) vs).
  { clear NE. induction X as [|r X IH]; [exists []; auto|]. destruct (H r) as (a & F & L); [left; reflexivity|].
    destruct IH as (vs & M & LV & FV); [intros r' I; apply H; right; exact I|]. exists (a :: vs). cbn [mapM]. rewrite F, M. simpl. auto. }
  destruct E as (vs & M & LV & FV). unfold cost_dec. rewrite M. cbn [bind].
  destruct X as [|r X]; [congruence|]. destruct vs as [|a vs]; [discriminate|]. unfold np_array. cbn [map scalars].
  inversion FV as [|? ? La FV']; subst.
  replace (forallb _ (map Arr vs)) with true.
  - cbn [nth_error of_option bind]. destruct (H r) as (a' & -> & _); [left; reflexivity|]. reflexivity.
  - symmetry. apply forallb_forall. intros v I. apply in_map_iff in I. destruct I as (b & <- & I). rewrite Forall_forall in FV'. apply Nat.eqb_eq. auto.
Qed.
Lemma cost_raises : forall f pre r post x, f r = Err x -> (forall q, In q pre -> exists v, f q = Ok v) -> cost_dec f (pre ++ r :: post) = Err x.
Proof.
  intros f pre r post x F P. unfold cost_dec. assert (E : mapM f (pre ++ r :: post) = Err x).
  { induction pre as [|q pre IH]; cbn [app mapM]; [rewrite F; reflexivity|]. destruct (P q) as [v ->]; [left; reflexivity|]. cbn [bind].
    rewrite IH; [reflexivity|]. intros q' I. apply P. right. exact I. }
  rewrite E. reflexivity.
Qed.
Lemma cost_rowwise : forall f, (forall r a, f r <> Ok (Arr a)) -> rowwise (cost_dec f).
Proof.
  intros f NA. exists (fun r => do v <- f r; match v with Scalar c => Ok c | Arr _ => Err ValueError end). intros X.
  assert (E : (exists cs, mapM f X = Ok (map Scalar cs) /\ mapM (fun r => do v <- f r; match v with Scalar c => Ok c | Arr _ => Err ValueError end) X = Ok cs) \/
              (exists x, mapM f X = Err x /\ mapM (fun r => do v <- f r; match v with Scalar c => Ok c | Arr _ => Err ValueError end) X = Err x)).
  { induction X as [|r X IH]; [left; exists []; auto|]. cbn [mapM]. destruct (f r) as [[c|a]|x] eqn:F.
    - cbn [bind]. destruct IH as [(cs & -> & ->)|(x & -> & ->)]; cbn [bind]; [left; exists (c :: cs); auto|right; eauto].
    - exfalso. exact (NA r a F).
    - right. exists x. auto. }
  unfold cost_dec. destruct E as [(cs & -> & E)|(x & -> & E)]; cbn [bind].
  - unfold np_array. rewrite (proj2 (scalars_some _ _) eq_refl). symmetry. exact E.
  - symmetry. exact E.
Qed.
Lemma cost_pool : forall f, (forall r a, f r <> Ok (Arr a)) -> forall c e k iters o, (forall t, e_obj e t = cost_dec f) ->
  optimize c e (Some (S k)) iters o = optimize c e None iters o.
Proof. intros f NA c e k iters o E. apply pool_equal. intros t. rewrite E. apply cost_rowwise. exact NA. Qed.

(** *** C49 *)
Lemma fceil_spec : forall x : f64, ffinite x = true -> fceil x = Zceil (B2R x).
Proof.
  intros [s|s| |s mm e W] F; try discriminate; cbn [fceil B2R].
  - symmetry. change 0%R with (IZR 0). apply Zceil_IZR.
  - set (v := (if s then - Z.pos mm else Z.pos mm)%Z). assert (V : cond_Zopp s (Z.pos mm) = v) by (destruct s; reflexivity). rewrite V.
    unfold F2R. cbn [Fnum Fexp]. destruct (Z.ltb_spec e 0).
    + replace (IZR v * bpow radix2 e)%R with (- (IZR (- v) / IZR (2 ^ (- e))))%R.
      2:{ change 2%Z with (radix_val radix2). rewrite IZR_Zpower by lia. rewrite bpow_opp, opp_IZR. unfold Rdiv. rewrite Rinv_inv. ring. }
      unfold Zceil. rewrite Ropp_involutive. rewrite Zfloor_div; [reflexivity|]. apply Z.pow_nonzero; lia.
    + change 2%Z with (radix_val radix2). rewrite <- IZR_Zpower by lia. rewrite <- mult_IZR, Zceil_IZR. reflexivity.
Qed.
Lemma arange_claim : forall lo hi step l, np_arange lo hi step = Ok l ->
  feq step fzero = false /\ length l = Z.to_nat (Zceil (B2R (fdiv (fsub hi lo) step))) /\
  (forall x, nth_error l 0 = Some x -> x = lo) /\
  (forall i x, 2 <= i -> nth_error l i = Some x -> x = fadd lo (fmul (fofZ (Z.of_nat i)) (fsub (fadd lo step) lo))).
Proof.
  unfold np_arange. intros lo hi step l H. destruct (feq step fzero); [discriminate|]. destruct (ffinite (fdiv (fsub hi lo) step)) eqn:F; [|discriminate].
  injection H as <-. rewrite <- fceil_spec by exact F. split; auto. split; [rewrite map_length; apply seq_length|].
  assert (G : forall n i x, nth_error (map (arange_at lo step) (seq 0 n)) i = Some x -> x = arange_at lo step i).
  { intros n i x X. apply nth_map_inv in X. destruct X as (k & K & ->). f_equal. apply nth_error_lt in K as L. rewrite seq_length in L.
    rewrite (nth_error_nth' _ 0) in K by (rewrite seq_length; exact L). injection K as <-. apply seq_nth. exact L. }
  split; [intros x X; apply G in X; exact X|]. intros i x L X. apply G in X. destruct i as [|[|i]]; [lia|lia|exact X].
Qed.
Lemma pooled_rowwise : forall f k X, rowwise f -> pooled (Some (S k)) f X = pooled None f X.
Proof. intros. apply pool_rowwise. assumption. Qed.
Lemma mesh_pool : forall f delta xl yl k, rowwise f -> mesh f delta xl yl (Some (S k)) = mesh f delta xl yl None.
Proof.
  intros. unfold mesh. destruct (np_arange (fst xl) (snd xl) delta) as [x|]; [|reflexivity]. destruct (np_arange (fst yl) (snd yl) delta) as [y|]; [|reflexivity].
  cbn [bind meshgrid]. rewrite pooled_rowwise by assumption. reflexivity.
Qed.
Lemma map2_app : forall A B C (f : A -> B -> C) a b a' b', length a = length b -> map2 f (a ++ a') (b ++ b') = map2 f a b ++ map2 f a' b'.
Proof. induction a; intros [|y b] a' b' L; simpl in *; try discriminate; auto. f_equal. apply IHa. lia. Qed.
Lemma pairs_eq : forall x y, let (xx, yy) := meshgrid x y in xypairs xx yy = concat (map (fun b => map (fun a => [a; b]) x) y).
Proof.
  intros x y. cbn [meshgrid]. unfold xypairs. induction y as [|b y IH]; [reflexivity|]. cbn [map concat].
  rewrite map2_app by (rewrite map_length; reflexivity). rewrite <- IH. f_equal. clear.
  induction x as [|a x IH]; [reflexivity|]. cbn [map map2]. f_equal. exact IH.
Qed.
(** [mapM] over blocks of equal length, reshaped back. *)
Lemma mapM_blocks : forall (g : list f64 -> res f64) x y z,
  mapM g (concat (map (fun b => map (fun a => [a; b]) x) y)) = Ok z ->
  length z = length y * length x /\
  forall i j a b, nth_error y i = Some b -> nth_error x j = Some a ->
    exists row c, nth_error (split_sizes (repeat (length x) (length y)) z) i = Some row /\ length row = length x /\ nth_error row j = Some c /\ g [a; b] = Ok c.
Proof.
  intros g x. induction y as [|b y IH]; intros z H.
  - cbn in H. injection H as <-. split; [reflexivity|]. intros [|i]; discriminate.
  - cbn [map concat] in H. rewrite mapM_app in H. apply bind_Ok in H. destruct H as (u & U & H). apply bind_Ok in H. destruct H as (v & V & H). injection H as <-.
    apply mapM_Ok in U. assert (LU : length u = length x) by (apply Forall2_len in U; rewrite map_length in U; congruence).
    destruct (IH v V) as [LV Q]. split; [rewrite app_length; cbn [length]; lia|]. intros i j a b' Y X. cbn [repeat length split_sizes].
    replace (firstn (length x) (u ++ v)) with u by (rewrite <- LU, firstn_app, Nat.sub_diag, firstn_all, firstn_O, app_nil_r; reflexivity).
    replace (skipn (length x) (u ++ v)) with v by (rewrite <- LU, skipn_app, Nat.sub_diag, skipn_all; reflexivity).
    destruct i as [|i]; simpl in Y.
    + injection Y as <-. exists u. destruct (nth_error_ex u j) as [c C]; [rewrite LU; apply nth_error_lt in X; exact X|].
      exists c. split; [reflexivity|]. split; [exact LU|]. split; [exact C|].
      clear -U X C. revert j u U X C. induction x as [|a0 x IH]; intros j u U X C; [destruct j; discriminate|].
      cbn [map] in U. inversion U as [|? ? ? ? G0 G1]; subst. destruct j; simpl in *; [injection X as <-; injection C as <-; exact G0|]. eapply IH; eauto.
    + apply (Q i j a b' Y X).
Qed.
Lemma split_len : forall A k n (z : list A), length z = n * k -> length (split_sizes (repeat k n) z) = n /\ Forall (fun r => length r = k) (split_sizes (repeat k n) z).
Proof.
  induction n as [|n IH]; intros z L; [split; [reflexivity|constructor]|]. cbn [repeat split_sizes length].
  destruct (IH (skipn k z)) as [A0 B]; [rewrite skipn_length; simpl in L; lia|]. split; [lia|]. constructor; auto. rewrite firstn_length. simpl in L. lia.
Qed.
Lemma mesh_claim : forall f g delta xl yl np xx yy zz, (forall X, f X = mapM g X) -> mesh f delta xl yl np = Ok (xx, yy, zz) ->
  exists x y, np_arange (fst xl) (snd xl) delta = Ok x /\ np_arange (fst yl) (snd yl) delta = Ok y /\
    is_matrix (length y) (length x) xx /\ is_matrix (length y) (length x) yy /\ is_matrix (length y) (length x) zz /\
    forall i j a b, nth_error y i = Some b -> nth_error x j = Some a ->
      entry xx i j = Some a /\ entry yy i j = Some b /\ exists c, entry zz i j = Some c /\ g [a; b] = Ok c.
Proof.
  intros f g delta xl yl np xx yy zz G H.
  assert (RW : rowwise f) by (exists g; exact G).
  assert (H' : mesh f delta xl yl None = Ok (xx, yy, zz)).
  { destruct np as [[|k]|]; auto. 2:{ rewrite mesh_pool in H by exact RW. exact H. }
    unfold mesh in H. destruct (np_arange (fst xl) (snd xl) delta); [|discriminate]. destruct (np_arange (fst yl) (snd yl) delta); discriminate. }
  clear H. unfold mesh in H'. apply bind_Ok in H'. destruct H' as (x & X & H). apply bind_Ok in H. destruct H as (y & Y & H).
  pose proof (pairs_eq x y) as PE. destruct (meshgrid x y) as [xx' yy'] eqn:ME. apply bind_Ok in H. destruct H as (z & Z0 & H).
  apply bind_Ok in H. destruct H as (zz' & RZ & H). injection H as <- <- <-. exists x, y. split; auto. split; auto.
  unfold pooled, compute_objective_function in Z0. rewrite PE, G in Z0. apply mapM_blocks in Z0. destruct Z0 as [LZ Q].
  unfold reshape in RZ. rewrite LZ, Nat.eqb_refl in RZ. injection RZ as <-. injection ME as <- <-.
  split. { split; [apply map_length|]. apply Forall_forall. intros r I. apply in_map_iff in I. destruct I as (? & <- & _). reflexivity. }
  split. { split; [apply map_length|]. apply Forall_forall. intros r I. apply in_map_iff in I. destruct I as (? & <- & _). apply map_length. }
  split. { exact (split_len _ _ _ _ LZ). }
  intros i j a b B A. unfold entry. split; [|split].
  - rewrite nth_error_map, B. exact A.
  - rewrite nth_error_map, B. cbn. rewrite nth_error_map, A. reflexivity.
  - destruct (Q i j a b B A) as (row & c & R & _ & C & GC). exists c. split; [|exact GC].
    exact (eq_trans (f_equal (fun o => match o with Some r => nth_error r j | None => None end) R) C).
Qed.
Lemma mesh_total : forall f g delta xl yl np x y, (forall X, f X = mapM g X) -> np <> Some 0 ->
  np_arange (fst xl) (snd xl) delta = Ok x -> np_arange (fst yl) (snd yl) delta = Ok y ->
  (forall a b, In a x -> In b y -> exists c, g [a; b] = Ok c) -> exists r, mesh f delta xl yl np = Ok r.
Proof.
  intros f g delta xl yl np x y G NP X Y T. assert (RW : rowwise f) by (exists g; exact G).
  assert (E : mesh f delta xl yl np = mesh f delta xl yl None) by (destruct np as [[|k]|]; [congruence|apply mesh_pool; exact RW|reflexivity]).
  rewrite E. unfold mesh. rewrite X, Y. cbn [bind]. pose proof (pairs_eq x y) as PE. destruct (meshgrid x y) as [xx yy].
  unfold pooled, compute_objective_function. rewrite PE, G.
  assert (Z0 : exists z, mapM g (concat (map (fun b => map (fun a => [a; b]) x) y)) = Ok z).
  { assert (I : forall r, In r (concat (map (fun b => map (fun a => [a; b]) x) y)) -> exists c, g r = Ok c).
    { intros r I. apply in_concat in I. destruct I as (l & L & I). apply in_map_iff in L. destruct L as (b & <- & B).
      apply in_map_iff in I. destruct I as (a & <- & A). auto. }
    revert I. generalize (concat (map (fun b => map (fun a => [a; b]) x) y)). clear. induction l as [|r l IH]; intros H; [exists []; reflexivity|].
    cbn [mapM]. destruct (H r) as [c ->]; [left; reflexivity|]. destruct IH as [z ->]; [intros q I; apply H; right; exact I|]. cbn. eauto. }
  destruct Z0 as (z & Z0). rewrite Z0. cbn [bind]. apply mapM_blocks in Z0. destruct Z0 as [L _]. unfold reshape. rewrite L, Nat.eqb_refl. cbn. eauto.
Qed.
Lemma history_pool : forall f P k, rowwise f -> compute_history_3d f P (Some (S k)) = compute_history_3d f P None.
Proof.
  intros f P k R. unfold compute_history_3d. destruct P as [|M P]; [reflexivity|].
  assert (E : forall l, mapM (pooled (Some (S k)) f) l = mapM (pooled None f) l).
  { induction l as [|X l IH]; [reflexivity|]. cbn [mapM]. rewrite pooled_rowwise by exact R. rewrite IH. reflexivity. }
  rewrite E. reflexivity.
Qed.
Lemma history_claim : forall f g P np H, (forall X, f X = mapM g X) -> compute_history_3d f P np = Ok H ->
  length H = length P /\ forall t X, nth_error P t = Some X -> exists Y, nth_error H t = Some Y /\ length Y = length X /\
    forall i r, nth_error X i = Some r -> exists c, g r = Ok c /\ nth_error Y i = Some (r ++ [c]).
Proof.
  intros f g P np H G E. assert (RW : rowwise f) by (exists g; exact G).
  assert (E' : compute_history_3d f P None = Ok H).
  { destruct np as [[|k]|]; auto. - destruct P; discriminate. - rewrite history_pool in E by exact RW. exact E. }
  clear E. assert (D : exists fit, mapM (pooled None f) P = Ok fit /\ dstack P fit = Ok H).
  { unfold compute_history_3d in E'. destruct P as [|X0 P]; [discriminate|]. apply bind_Ok in E'. exact E'. }
  clear E'. destruct D as (fit & F & D). apply mapM_Ok in F.
  assert (F' : Forall2 (fun X c => mapM g X = Ok c) P fit).
  { revert F. clear -G. intros F. induction F as [|X c l fit Q F IH]; constructor; auto.
    unfold pooled, compute_objective_function in Q. rewrite G in Q. exact Q. }
  clear F. unfold dstack in D. destruct (Nat.eqb _ _ && _); [|discriminate]. injection D as <-. clear -F'. rename F' into F.
  induction F as [|X c l fit Q F IH]; cbn [map2]; [split; [reflexivity|intros [|t]; discriminate]|].
  destruct IH as [L IH]. split; [exact (f_equal S L)|]. intros [|t] X' T; [|exact (IH t X' T)]. cbn in T. injection T as <-.
  eexists. split; [reflexivity|]. apply mapM_Ok in Q. clear -Q. induction Q as [|r c X cs R Q IH]; cbn [map2]; [split; [reflexivity|intros [|i]; discriminate]|].
  destruct IH as [L IH]. split; [exact (f_equal S L)|]. intros [|i] r' R'; [|exact (IH i r' R')]. cbn in R'. injection R' as <-. exists c. auto.
Qed.
Lemma history_total : forall f g P np, (forall X, f X = mapM g X) -> np <> Some 0 -> P <> [] ->
  (forall X r, In X P -> In r X -> exists c, g r = Ok c) -> exists H, compute_history_3d f P np = Ok H.
Proof.
  intros f g P np G NP NE T. assert (RW : rowwise f) by (exists g; exact G).
  assert (E : compute_history_3d f P np = compute_history_3d f P None) by (destruct np as [[|k]|]; [congruence|apply history_pool; exact RW|reflexivity]).
  rewrite E. assert (U : compute_history_3d f P None = (do fitness <- mapM (pooled None f) P; dstack P fitness)) by (destruct P; [congruence|reflexivity]).
  rewrite U. clear U E NE NP RW np.
  assert (R0 : forall X, (forall r, In r X -> exists c, g r = Ok c) -> exists cs, mapM g X = Ok cs).
  { clear. induction X as [|r X IH]; intros H; [exists []; reflexivity|]. cbn [mapM]. destruct (H r) as [c ->]; [left; reflexivity|].
    destruct IH as [cs ->]; [intros q I; apply H; right; exact I|]. cbn. eauto. }
  assert (F : exists fit, mapM (pooled None f) P = Ok fit /\ Forall2 (fun X c => length X = length c) P fit).
  { induction P as [|X P IH]; [exists []; split; [reflexivity|constructor]|]. cbn [mapM]. unfold pooled at 1, compute_objective_function. rewrite G.
    destruct (R0 X) as [cs C]; [intros r I; apply (T X); [left; reflexivity|exact I]|]. rewrite C. cbn [bind].
    destruct IH as (fit & -> & FF); [intros X' r I J; apply (T X' r); [right; exact I|exact J]|]. exists (cs :: fit). split; [reflexivity|].
    constructor; auto. apply mapM_Ok in C. apply Forall2_len in C. exact C. }
  destruct F as (fit & F & L). rewrite F. cbn [bind]. unfold dstack.
  assert (LE : length P = length fit) by (apply Forall2_len in L; exact L). apply Nat.eqb_eq in LE.
  match goal with |- context [Nat.eqb ?a ?b] => replace (Nat.eqb a b) with true by (symmetry; exact LE) end. replace (forallb _ (combine P fit)) with true; [cbn; eauto|].
  symmetry. clear -L. induction L as [|X c P fit Q L IH]; [reflexivity|]. cbn [combine forallb fst snd]. rewrite Q, Nat.eqb_refl, IH. reflexivity.
Qed.
