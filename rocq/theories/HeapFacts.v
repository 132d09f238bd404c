(** The array operations of Heap.v compute the values of the pure model and write only into
    arrays they own. *)
From Coq Require Import String ZArith List Arith Bool Lia.
From Verif Require Import Prelude ListFacts F64 Num Np NpFacts Handlers Swarms Operators Generators Topology Optimizers Heap SpecHeap.
Import ListNotations.
Local Open Scope string_scope.
Local Open Scope list_scope.
Local Open Scope nat_scope.

(** *** In-place assignment gives the values of the pure model *)

Lemma nearest_seq : forall (b : bounds F64num) (p : fmatrix),
  map2 (fun r r1 => map3 (fun x y u : f64 => if greater (N := F64num) x u then u else y) r r1 (b_ub b)) p
    (map (fun r => map2 (fun x l : f64 => if lower (N := F64num) x l then l else x) r (b_lb b)) p) = nearest b p.
Proof.
  intros b p. unfold nearest. induction p as [|r p IH]; [reflexivity|]. cbn [map map2]. f_equal; [|exact IH]. clear.
  generalize (b_lb b) (b_ub b). induction r as [|x r IH]; intros [|l lb] [|u ub]; try reflexivity. cbn [map2 map3]. f_equal. apply IH.
Qed.
Lemma put_nil : forall k v, put k v [] = [].
Proof. intros [|? ?] [|? ?]; reflexivity. Qed.
Lemma put_rows_nil : forall k v, put_rows k v [] = [].
Proof. intros [|? ?] [|? ?]; reflexivity. Qed.
Lemma reflect_seq : forall (b : bounds F64num) (p : fmatrix),
  let p1 := put (mask_lower b p) (map (fun r => map2 (fun l x : f64 => fsub (fmul (fofZ 2) l) x) (b_lb b) r) p) p in
  put (mask_greater b p) (map (fun r => map2 (fun u x : f64 => fsub (fmul (fofZ 2) u) x) (b_ub b) r) p1) p1 = reflect_pass b p.
Proof.
  intros b p. cbv zeta. unfold reflect_pass, put, mask_lower, mask_greater. induction p as [|r p IH]; [reflexivity|]. cbn [map map3]. f_equal; [|exact IH]. clear.
  generalize (b_lb b) (b_ub b). induction r as [|x r IH]; intros [|l lb] [|u ub]; try reflexivity. cbn [map2 map3]. f_equal. apply IH.
Qed.
Lemma any_seq : forall (b : bounds F64num) (p : fmatrix), any_mask (mask_lower b p) || any_mask (mask_greater b p) = any_out (N := F64num) p b.
Proof.
  intros b p. unfold any_mask, mask_lower, mask_greater, any_out. induction p as [|r p IH]; [reflexivity|]. cbn [map existsb]. rewrite <- IH.
  unfold row_lower, row_greater. repeat match goal with |- context [existsb ?f ?l] => destruct (existsb f l) end; reflexivity.
Qed.
Lemma periodic_seq : forall (b : bounds F64num) (p : fmatrix),
  let size := map2 (fun l u : f64 => fabs (fsub u l)) (b_lb b) (b_ub b) in
  let p1 := put (mask_lower b p) (map (fun r => map4 (fun x l u s : f64 => fsub u (fnpmod (fsub l x) s)) r (b_lb b) (b_ub b) size) p) p in
  put (mask_greater b p) (map (fun r => map4 (fun x l u s : f64 => fadd l (fnpmod (fsub x u) s)) r (b_lb b) (b_ub b) size) p1) p1 = periodic b p.
Proof.
  intros b p. cbv zeta. unfold periodic, put, mask_lower, mask_greater. induction p as [|r p IH]; [reflexivity|]. cbn [map map3]. f_equal; [|exact IH]. clear.
  generalize (b_lb b) (b_ub b). induction r as [|x r IH]; intros [|l lb] [|u ub]; try reflexivity. cbn [map2 map3 map4]. f_equal. apply IH.
Qed.
Lemma intermediate_seq : forall (b : bounds F64num) (p m : fmatrix),
  let half (m : fmatrix) bd := map (fun mr => map2 (fun y l : f64 => fmul (fdec 1 2) (fadd y l)) mr bd) m in
  put (mask_greater b p) (half m (b_ub b)) (put (mask_lower b p) (half m (b_lb b)) p) =
  map2 (fun x mr => map4 (intermediate_el (N := F64num)) x mr (b_lb b) (b_ub b)) p m.
Proof.
  intros b p. cbv zeta. unfold put, mask_lower, mask_greater. induction p as [|r p IH]; intros [|m ms]; try reflexivity.
  cbn [map map2 map3]. f_equal; [|exact (IH ms)]. clear.
  generalize (b_lb b) (b_ub b). revert m. induction r as [|x r IH]; intros [|y m] [|l lb] [|u ub]; try reflexivity. cbn [map2 map3 map4]. f_equal. apply IH.
Qed.
Lemma random_seq : forall (b : bounds F64num) ug ul (p : fmatrix),
  let p1 := put_rows (mask_greater b p) (map (fun _ => resample (N := F64num) b ug) p) p in
  put_rows (mask_lower b p) (map (fun _ => resample (N := F64num) b ul) p1) p1 =
  map (fun r => if row_lower (N := F64num) r b then resample b ul else if row_greater (N := F64num) r b then resample b ug else r) p.
Proof.
  intros b ug ul p. cbv zeta. unfold put_rows, mask_lower, mask_greater. induction p as [|r p IH]; [reflexivity|]. cbn [map map3]. f_equal. exact IH.
Qed.
Lemma sigma_seq : forall (lb ub r m : list f64),
  map3 (fun (b : bool) (v x : f64) => if b then v else x) (map2 (greater (N := F64num)) r ub)
    (map3 (fun l y v : f64 => fdiv (fsub l y) v) ub m (map2 (fun x y : f64 => fsub x y) r m))
    (map3 (fun (b : bool) (v x : f64) => if b then v else x) (map2 (lower (N := F64num)) r lb)
      (map3 (fun l y v : f64 => fdiv (fsub l y) v) lb m (map2 (fun x y : f64 => fsub x y) r m)) (map (fun _ => fofZ 1) r))
  = map4 (sigma_el (N := F64num)) r m lb ub.
Proof.
  intros lb ub r. revert lb ub. induction r as [|x r IH]; intros [|l lb] [|u ub] [|y m]; try reflexivity. cbn [map map2 map3 map4]. f_equal. apply IH.
Qed.
Lemma moved_seq : forall (s : f64) (r m : list f64),
  map2 (fun y v : f64 => fadd y (fmul s v)) m (map2 (fun x y : f64 => fsub x y) r m) =
  map2 (fun xi mi => nadd (n := F64num) mi (nmul (n := F64num) s (nsub (n := F64num) xi mi))) r m.
Proof. induction r as [|x r IH]; intros [|y m]; try reflexivity. cbn [map2]. f_equal. apply IH. Qed.
Lemma shrink_seq : forall (b : bounds F64num) (p m : fmatrix),
  let vel := map2 (map2 (fun x y : f64 => fsub x y)) p m in
  let quot bd := map2 (fun mr vr => map3 (fun l y v : f64 => fdiv (fsub l y) v) bd mr vr) m vel in
  let sigma := put (mask_greater b p) (quot (b_ub b)) (put (mask_lower b p) (quot (b_lb b)) (map (map (fun _ : f64 => fofZ 1)) p)) in
  mapM (fun q => shrink_row (N := F64num) b (fst q) (snd q)) (combine p m) =
  do ms <- mapM (np_min (N := F64num)) sigma;
  let moved := map3 (fun mr s vr => map2 (fun y v : f64 => fadd y (fmul s v)) mr vr) m ms vel in
  Ok (put_rows (mask_greater b p) moved (put_rows (mask_lower b p) moved p)).
Proof.
  intros b p. cbv zeta. unfold put, put_rows, mask_lower, mask_greater. induction p as [|r p IH]; intros [|m ms]; try reflexivity.
  cbn [combine mapM map map2 map3 fst snd]. rewrite (IH ms). clear IH. unfold shrink_row at 1. rewrite sigma_seq.
  destruct (np_min (N := F64num) (map4 (sigma_el (N := F64num)) r m (b_lb b) (b_ub b))) as [s|x]; [|reflexivity]. cbn [bind].
  match goal with |- context [mapM (np_min (N := F64num)) ?l] => destruct (mapM (np_min (N := F64num)) l) as [ss|x] end; [|reflexivity].
  cbn [bind map3]. f_equal. f_equal. rewrite moved_seq.
  change (existsb (fun x => x) (map2 (lower (N := F64num)) r (b_lb b))) with (row_lower (N := F64num) r b).
  change (existsb (fun x => x) (map2 (greater (N := F64num)) r (b_ub b))) with (row_greater (N := F64num) r b).
  destruct (row_lower (N := F64num) r b), (row_greater (N := F64num) r b); reflexivity.
Qed.
Lemma invert_seq : forall (b : bounds F64num) (z : f64) (p v : fmatrix),
  let v1 := put_rows (mask_lower b p) (map (map (fun x : f64 => fmul (fopp z) x)) v) v in
  put_rows (mask_greater b p) (map (map (fun x : f64 => fmul (fopp z) x)) v1) v1 = map2 (invert_row (N := F64num) b z) p v.
Proof.
  intros b z p. cbv zeta. unfold put_rows, mask_lower, mask_greater. induction p as [|r p IH]; intros [|v vs]; try reflexivity. cbn [map map2 map3]. f_equal. exact (IH vs).
Qed.
Lemma zero_again : forall (v : list f64), map (fun _ : f64 => fofZ 0) (map (fun _ : f64 => fofZ 0) v) = map (fun _ : f64 => fofZ 0) v.
Proof. intros. rewrite map_map. reflexivity. Qed.
Lemma zero_seq : forall (b : bounds F64num) (p v : fmatrix),
  let v1 := put_rows (mask_lower b p) (map (map (fun _ : f64 => fofZ 0)) v) v in
  put_rows (mask_greater b p) (map (map (fun _ : f64 => fofZ 0)) v1) v1 = map2 (zero_row (N := F64num) b) p v.
Proof.
  intros b p. cbv zeta. unfold put_rows, mask_lower, mask_greater. induction p as [|r p IH]; intros [|v vs]; try reflexivity. cbn [map map2 map3]. f_equal; [|exact (IH vs)].
  unfold zero_row, row_lower, row_greater. destruct (existsb _ (map2 lower r (b_lb b))), (existsb _ (map2 greater r (b_ub b))); cbn [orb]; try reflexivity. apply zero_again.
Qed.
Lemma clamp_seq : forall (c : clamp_t F64num) (v : fmatrix),
  map2 (fun r r1 => map3 (fun x y u : f64 => if fle u x then u else y) r r1 (snd c)) v
    (map (fun r => map2 (fun x l : f64 => if fle x l then l else x) r (fst c)) v) = map (fun r => map3 (clamp_el (N := F64num)) r (fst c) (snd c)) v.
Proof.
  intros [lo hi] v. cbn [fst snd]. induction v as [|r v IH]; [reflexivity|]. cbn [map map2]. f_equal; [|exact IH]. clear.
  revert lo hi. induction r as [|x r IH]; intros [|l lo] [|u hi]; try reflexivity. cbn [map2 map3]. f_equal. apply IH.
Qed.

(** *** Heaps *)

(** The arrays below [n] are as before. *)
Definition same (n : nat) (h h' : heap) : Prop := length h <= length h' /\ forall a, a < n -> nth_error h' a = nth_error h a.
Lemma same_refl : forall n h, same n h h. Proof. split; auto. Qed.
Lemma same_trans : forall n h1 h2 h3, same n h1 h2 -> same n h2 h3 -> same n h1 h3.
Proof. intros n h1 h2 h3 [L1 E1] [L2 E2]. split; [lia|]. intros a A. rewrite E2, E1; auto. Qed.
Lemma same_le : forall n m h h', same m h h' -> n <= m -> same n h h'.
Proof. intros n m h h' [L E] N. split; auto. intros a A. apply E. lia. Qed.
Lemma same_alloc : forall n h m, n <= length h -> same n h (h ++ [m]).
Proof. intros n h m L. split; [rewrite app_length; simpl; lia|]. intros a A. apply nth_error_app1. lia. Qed.
Lemma upd_length : forall A (l : list A) i x, length (upd l i x) = length l.
Proof. induction l; intros [|i] x; simpl; auto. Qed.
Lemma upd_same : forall A (l : list A) i x, i < length l -> nth_error (upd l i x) i = Some x.
Proof. induction l as [|y l IH]; intros [|i] x L; simpl in *; [lia|lia|reflexivity|]. apply IH. lia. Qed.
Lemma upd_other : forall A (l : list A) i j x, i <> j -> nth_error (upd l i x) j = nth_error l j.
Proof. induction l as [|y l IH]; intros [|i] [|j] x L; simpl in *; auto; try congruence. Qed.
Lemma same_write : forall n h a m, n <= a -> same n h (upd h a m).
Proof. intros n h a m L. split; [rewrite upd_length; lia|]. intros b B. apply upd_other. lia. Qed.
Lemma nth_lt : forall A (l : list A) i x, nth_error l i = Some x -> i < length l.
Proof. intros A l i x E. apply nth_error_Some. congruence. Qed.
Lemma same_nth : forall n h h' a m, same n h h' -> a < n -> nth_error h a = Some m -> nth_error h' a = Some m.
Proof. intros n h h' a m [_ E] A M. rewrite E; auto. Qed.
Lemma alloc_at : forall (h : heap) m, nth_error (h ++ [m]) (length h) = Some m.
Proof. intros. rewrite nth_error_app2, Nat.sub_diag by lia. reflexivity. Qed.

(** [m] on [h] gives the outcome [r], results related by [R], and leaves the arrays below [n]. *)
Definition agrees {A B} (n : nat) (h : heap) (m : H A) (r : res B) (R : heap -> A -> B -> Prop) : Prop :=
  let (h', x) := m h in
  same n h h' /\ match x, r with Ok a, Ok b => R h' a b | Err e, Err e' => e = e' | _, _ => False end.
Lemma agrees_bind : forall A B C D n h (m : H A) (f : A -> H C) (r : res B) (g : B -> res D) R S,
  agrees n h m r R -> (forall h' a b, same n h h' -> R h' a b -> agrees n h' (f a) (g b) S) -> agrees n h (hbind m f) (bind r g) S.
Proof.
  intros A B C D n h m f r g R S M F. unfold agrees, hbind in *. destruct (m h) as [h' x]. destruct M as [E M].
  destruct x as [a|x], r as [b|y]; try contradiction; [|cbn [bind]; auto].
  specialize (F h' a b E M). cbn [bind]. destruct (f a h') as [h'' z]. destruct F as [E' F]. split; [|exact F]. eapply same_trans; eauto.
Qed.
(** Reading, writing an owned array, allocating. *)
Lemma run_read : forall A h a m (f : fmatrix -> H A), nth_error h a = Some m -> (ho x <- read a; f x) h = f m h.
Proof. intros A h a m f E. unfold hbind, read. rewrite E. reflexivity. Qed.
Lemma run_write : forall A h a m (f : unit -> H A), (ho x <- write a m; f x) h = f tt (upd h a m).
Proof. reflexivity. Qed.
Lemma run_alloc : forall A h m (f : addr -> H A), (ho x <- alloc m; f x) h = f (length h) (h ++ [m]).
Proof. reflexivity. Qed.
Lemma agrees_read : forall A B n h a m (f : fmatrix -> H A) (r : res B) R, nth_error h a = Some m -> agrees n h (f m) r R ->
  agrees n h (ho x <- read a; f x) r R.
Proof. intros. unfold agrees in *. rewrite (run_read _ _ _ m) by assumption. assumption. Qed.
Lemma agrees_write : forall A B n h a m (f : unit -> H A) (r : res B) R, n <= a -> agrees n (upd h a m) (f tt) r R ->
  agrees n h (ho x <- write a m; f x) r R.
Proof.
  intros A B n h a m f r R L G. unfold agrees in *. rewrite run_write. destruct (f tt (upd h a m)) as [h' x]. destruct G as [E G].
  split; [|exact G]. eapply same_trans; [apply same_write; exact L|exact E].
Qed.
Lemma agrees_alloc : forall A B n h m (f : addr -> H A) (r : res B) R, n <= length h -> agrees n (h ++ [m]) (f (length h)) r R ->
  agrees n h (ho x <- alloc m; f x) r R.
Proof.
  intros A B n h m f r R L G. unfold agrees in *. rewrite run_alloc. destruct (f (length h) (h ++ [m])) as [h' x]. destruct G as [E G].
  split; [|exact G]. eapply same_trans; [apply same_alloc; exact L|exact E].
Qed.
Lemma agrees_ret : forall A B n h (a : A) (b : B) (R : heap -> A -> B -> Prop), R h a b -> agrees n h (hret a) (Ok b) R.
Proof. intros. split; [apply same_refl|assumption]. Qed.
Lemma agrees_fail : forall A B n h x (R : heap -> A -> B -> Prop), agrees n h (hfail x) (Err x) R.
Proof. intros. split; [apply same_refl|reflexivity]. Qed.
Lemma agrees_lift : forall A B n h (x : res A) (f : A -> H B) C (g : A -> res C) R, (forall a, x = Ok a -> agrees n h (f a) (g a) R) ->
  agrees n h (ho a <- hlift x; f a) (bind x g) R.
Proof. intros A B n h [a|x] f C g R G; [exact (G a eq_refl)|]. split; [apply same_refl|reflexivity]. Qed.

(** *** The handlers *)

(** A result array: it holds [p] and is not one of the old arrays. *)
Definition owned (n : nat) (h : heap) (a : addr) (p : fmatrix) : Prop := n <= a /\ nth_error h a = Some p.
(** A memory in the old part of the heap. *)
Definition old_mem (n : nat) (h : heap) (mem : option addr) (vm : option fmatrix) : Prop :=
  match mem, vm with
  | None, None => True
  | Some a, Some m => a < n /\ nth_error h a = Some m
  | _, _ => False
  end.
Lemma old_at : forall n h h' mem vm, same n h h' -> old_mem n h mem vm -> at_mem h' mem vm.
Proof. intros n h h' [a|] [m|] S O; cbn in *; auto. destruct O as [L O]. eapply same_nth; eauto. Qed.
Lemma old_keep : forall n h h' mem vm, same n h h' -> old_mem n h mem vm -> old_mem n h' mem vm.
Proof. intros n h h' [a|] [m|] S O; cbn in *; auto. destruct O as [L O]. split; auto. eapply same_nth; eauto. Qed.
Definition result (n : nat) (h : heap) (x : addr * option addr) (y : fmatrix * option fmatrix) : Prop :=
  owned n h (fst x) (fst y) /\ at_mem h (snd x) (snd y).

Ltac rd := eapply agrees_read; [first [eassumption | apply upd_same; rewrite ?upd_length; assumption | apply alloc_at]|].
Ltac wr := apply agrees_write; [assumption|].

Lemma h_nearest_spec : forall n h b a p, n <= length h -> nth_error h a = Some p -> agrees n h (h_nearest b a) (Ok (nearest b p)) (owned n).
Proof.
  intros n h b a p L P. unfold h_nearest. rd. apply agrees_alloc; [exact L|]. rd. rewrite nearest_seq.
  split; [apply same_alloc; rewrite app_length; simpl; lia|]. split; [rewrite app_length; simpl; lia|]. apply alloc_at.
Qed.
Lemma h_reflective_spec : forall fuel n h b a p, n <= a -> nth_error h a = Some p -> agrees n h (h_reflective fuel b a) (reflective_loop (N := F64num) fuel b p) (owned n).
Proof.
  induction fuel as [|fuel IH]; intros n h b a p L P; pose proof (nth_lt _ _ _ _ P) as LA; cbn [h_reflective reflective_loop]; rd; rewrite any_seq;
    (destruct (any_out (N := F64num) p b); [|apply agrees_ret; split; assumption]).
  - apply agrees_fail.
  - wr. rd. wr. pose proof (reflect_seq b p) as Q. cbv zeta in Q. rewrite Q. apply IH; [exact L|]. apply upd_same. rewrite upd_length. exact LA.
Qed.
Lemma h_periodic_spec : forall n h b a p, n <= a -> nth_error h a = Some p -> agrees n h (h_periodic b a) (Ok (periodic b p)) (owned n).
Proof.
  intros n h b a p L P. pose proof (nth_lt _ _ _ _ P) as LA. unfold h_periodic. rd. wr. rd. wr. pose proof (periodic_seq b p) as Q. cbv zeta in Q. rewrite Q.
  apply agrees_ret. split; [exact L|]. apply upd_same. rewrite upd_length. exact LA.
Qed.
Lemma h_random_spec : forall n h ug ul b a p, n <= a -> nth_error h a = Some p -> agrees n h (h_random ug ul b a) (random_bh (N := F64num) ug ul b p) (owned n).
Proof.
  intros n h ug ul b a p L P. pose proof (nth_lt _ _ _ _ P) as LA. unfold h_random, random_bh. rd.
  match goal with |- context [if ?c then _ else _] => destruct c; [apply agrees_fail|] end.
  wr. rd. wr. pose proof (random_seq b ug ul p) as Q. cbv zeta in Q. rewrite Q.
  apply agrees_ret. split; [exact L|]. apply upd_same. rewrite upd_length. exact LA.
Qed.
Lemma h_intermediate_spec : forall n h mem vm b a p, n <= a -> nth_error h a = Some p -> at_mem h mem vm -> mem <> Some a ->
  agrees n h (h_intermediate mem b a) (do q <- intermediate (N := F64num) vm b p; Ok (q, Some q)) (result n).
Proof.
  intros n h mem vm b a p L P O NA. pose proof (nth_lt _ _ _ _ P) as LA. unfold h_intermediate, intermediate. destruct mem as [am|], vm as [m|]; try contradiction.
  2:{ apply agrees_ret. split; [split; assumption|exact P]. }
  rename O into M. cbn in M. rd. rd. destruct (negb (b_arr b)); [apply agrees_fail|]. destruct (negb (same_shape p m)) eqn:Sh.
  { try (match goal with |- agrees _ _ (if ?c then _ else _) _ _ => replace c with true by (symmetry; exact Sh) end). cbn [bind]. apply agrees_fail. }
  try (match goal with |- agrees _ _ (if ?c then _ else _) _ _ => replace c with false by (symmetry; exact Sh) end). cbn [bind].
  assert (M1 : forall x, nth_error (upd h a x) am = Some m) by (intros x; rewrite upd_other by (intros E0; apply NA; f_equal; lia); exact M).
  wr. eapply agrees_read; [apply M1|]. rd. wr. pose proof (intermediate_seq b p m) as Q. cbv zeta in Q. rewrite Q.
  apply agrees_ret. assert (W : forall x, nth_error (upd (upd h a (put (mask_lower b p) (map (fun mr => map2 (fun y l : f64 => fmul (fdec 1 2) (fadd y l)) mr (b_lb b)) m) p)) a x) a = Some x).
  { intros x. apply upd_same. rewrite upd_length. exact LA. }
  split; [split; [exact L|]|]; apply W.
Qed.
Lemma h_shrink_spec : forall n h mem vm b a p, n <= a -> nth_error h a = Some p -> at_mem h mem vm -> mem <> Some a ->
  agrees n h (h_shrink mem b a) (do q <- shrink (N := F64num) vm b p; Ok (q, Some q)) (result n).
Proof.
  intros n h mem vm b a p L P O NA. pose proof (nth_lt _ _ _ _ P) as LA. unfold h_shrink, shrink. destruct mem as [am|], vm as [m|]; try contradiction.
  2:{ apply agrees_ret. split; [split; assumption|exact P]. }
  rename O into M. cbn in M. rd. rd. destruct (negb (b_arr b)); [apply agrees_fail|]. destruct (negb (same_shape p m)) eqn:Sh.
  { try (match goal with |- agrees _ _ (if ?c then _ else _) _ _ => replace c with true by (symmetry; exact Sh) end). cbn [bind]. apply agrees_fail. }
  try (match goal with |- agrees _ _ (if ?c then _ else _) _ _ => replace c with false by (symmetry; exact Sh) end).
  assert (M1 : forall x, nth_error (upd h a x) am = Some m) by (intros x; rewrite upd_other by (intros E0; apply NA; f_equal; lia); exact M).
  pose proof (shrink_seq b p m) as Q. cbv zeta in Q.
  match goal with |- agrees _ _ _ (bind ?x _) _ => replace x with (mapM (fun q => shrink_row (N := F64num) b (fst q) (snd q)) (combine p m)) by reflexivity end.
  rewrite Q. clear Q. cbv zeta.
  match goal with |- agrees _ _ _ (bind (bind ?x ?f) ?g) _ => replace (bind (bind x f) g) with (bind x (fun ms => bind (f ms) g)) by (destruct x; reflexivity) end.
  apply agrees_lift. intros ms _. cbn [bind]. rd. wr. eapply agrees_read; [apply M1|]. rd. wr. apply agrees_ret.
  match goal with |- result _ (upd (upd h a ?x) a ?y) _ _ => assert (W : nth_error (upd (upd h a x) a y) a = Some y) by (apply upd_same; rewrite upd_length; exact LA) end.
  split; [split; [exact L|exact W]|exact W].
Qed.
Lemma old_here : forall n h mem vm a, n <= a -> old_mem n h mem vm -> at_mem h mem vm /\ mem <> Some a.
Proof. intros n h [m|] [vm|] a L O; cbn in *; try contradiction; split; auto; try discriminate; try tauto. intros E. injection E as ->. lia. Qed.
Lemma h_bh_spec : forall n h strategy dr mem vm b a p, n <= a -> n <= length h -> nth_error h a = Some p -> old_mem n h mem vm ->
  agrees n h (h_bh strategy dr mem b a) (bh_call (N := F64num) strategy dr vm b p) (result n).
Proof.
  intros n h strategy dr mem vm b a p L LH P O. unfold h_bh, bh_call. destruct (negb (bh_known strategy)); [apply agrees_fail|]. rd.
  match goal with |- context [negb (bounds_fit p b)] => destruct (negb (bounds_fit p b)); [apply agrees_fail|] end.
  destruct (String.eqb strategy "nearest").
  { change (Ok (nearest b p, vm)) with (do q <- Ok (nearest b p); Ok (q, vm)). eapply agrees_bind; [apply h_nearest_spec; assumption|].
    intros h' x q E R. apply agrees_ret. split; [exact R|]. eapply old_at; eauto. }
  destruct (String.eqb strategy "reflective").
  { unfold reflective. match goal with |- context [if ?c then _ else _] => destruct c; [apply agrees_fail|] end.
    eapply agrees_bind; [apply h_reflective_spec; assumption|]. intros h' x q E R. apply agrees_ret. split; [exact R|]. eapply old_at; eauto. }
  destruct (String.eqb strategy "shrink"); [apply h_shrink_spec; auto; eapply old_here; eauto|].
  destruct (String.eqb strategy "random").
  { eapply agrees_bind; [apply h_random_spec; assumption|]. intros h' x q E R. apply agrees_ret. split; [exact R|]. eapply old_at; eauto. }
  destruct (String.eqb strategy "intermediate"); [apply h_intermediate_spec; auto; eapply old_here; eauto|].
  change (Ok (periodic b p, vm)) with (do q <- Ok (periodic b p); Ok (q, vm)). eapply agrees_bind; [apply h_periodic_spec; assumption|].
  intros h' x q E R. apply agrees_ret. split; [exact R|]. eapply old_at; eauto.
Qed.

Lemma h_clamp_spec : forall n h c a v, n <= a -> n <= length h -> nth_error h a = Some v -> agrees n h (h_clamp c a) (maybe_clamp (N := F64num) c v) (owned n).
Proof.
  intros n h [c|] a v L LH V; unfold h_clamp, maybe_clamp; [|apply agrees_ret; split; assumption]. rd. unfold apply_clamp.
  match goal with |- context [clamp_fit v c] => destruct (clamp_fit v c); [|apply agrees_fail] end.
  apply agrees_alloc; [exact LH|]. rd. rewrite clamp_seq. split; [apply same_alloc; rewrite app_length; simpl; lia|].
  split; [rewrite app_length; simpl; lia|]. apply alloc_at.
Qed.
Lemma h_invert_spec : forall n h c bo ap a x v, n <= a -> n <= length h -> nth_error h ap = Some x -> nth_error h a = Some v ->
  agrees n h (h_invert c bo ap a) (vh_invert (N := F64num) c (mkVk (Some x) (Some bo) None) v) (owned n).
Proof.
  intros n h c bo ap a x v L LH X V. pose proof (nth_lt _ _ _ _ V) as LA.
    unfold h_invert, vh_invert, vk_get. cbn [vk_position vk_bounds vk_z]. rd. destruct bo as [b|]; [|apply agrees_fail].
    match goal with |- context [bounds_fit x b] => destruct (bounds_fit x b); [|apply agrees_fail] end. unfold hlift, hbind at 1. cbn [bind].
    change (agrees n h (ho v0 <- read a; (if negb (same_shape v0 x) then hfail IndexError else
      ho _ <- write a (put_rows (mask_lower b x) (map (map (fun y : f64 => fmul (fopp (fdec 1 2)) y)) v0) v0); ho v1 <- read a;
      ho _ <- write a (put_rows (mask_greater b x) (map (map (fun y : f64 => fmul (fopp (fdec 1 2)) y)) v1) v1); h_clamp c a))
      (if negb (same_shape v x) then Err IndexError else maybe_clamp c (map2 (invert_row b (ndec 1 2)) x v)) (owned n)).
    rd. destruct (negb (same_shape v x)) eqn:Sh.
    { try (match goal with |- agrees _ _ (if ?c then _ else _) _ _ => replace c with true by (symmetry; exact Sh) end). apply agrees_fail. }
    try (match goal with |- agrees _ _ (if ?c then _ else _) _ _ => replace c with false by (symmetry; exact Sh) end).
    wr. rd. wr. pose proof (invert_seq b (fdec 1 2) x v) as Q. cbv zeta in Q. rewrite Q. apply h_clamp_spec; [exact L|rewrite !upd_length; exact LH|].
    apply upd_same. rewrite upd_length. exact LA.
Qed.
Lemma h_zero_spec : forall n h bo ap a x v, n <= a -> nth_error h ap = Some x -> nth_error h a = Some v ->
  agrees n h (h_zero bo ap a) (vh_zero (N := F64num) (mkVk (Some x) (Some bo) None) v) (owned n).
Proof.
  intros n h bo ap a x v L X V. pose proof (nth_lt _ _ _ _ V) as LA.
  unfold h_zero, vh_zero, vk_get. cbn [vk_position vk_bounds vk_z]. rd. destruct bo as [b|]; [|apply agrees_fail].
  match goal with |- context [bounds_fit x b] => destruct (bounds_fit x b); [|apply agrees_fail] end. unfold hlift, hbind at 1. cbn [bind].
  change (agrees n h (ho v0 <- read a; (if negb (same_shape v0 x) then hfail IndexError else
      ho _ <- write a (put_rows (mask_lower b x) (map (map (fun _ : f64 => fofZ 0)) v0) v0); ho v1 <- read a;
      ho _ <- write a (put_rows (mask_greater b x) (map (map (fun _ : f64 => fofZ 0)) v1) v1); hret a))
      (if negb (same_shape v x) then Err IndexError else Ok (map2 (zero_row b) x v)) (owned n)).
  rd. destruct (negb (same_shape v x)) eqn:Sh.
  { try (match goal with |- agrees _ _ (if ?c then _ else _) _ _ => replace c with true by (symmetry; exact Sh) end). apply agrees_fail. }
  try (match goal with |- agrees _ _ (if ?c then _ else _) _ _ => replace c with false by (symmetry; exact Sh) end).
  wr. rd. wr. pose proof (zero_seq b x v) as Q. cbv zeta in Q. rewrite Q. apply agrees_ret. split; [exact L|].
  apply upd_same. rewrite upd_length. exact LA.
Qed.
Lemma h_vh_spec : forall n h strategy c mem vm bo ap a x v, n <= a -> n <= length h -> ap < n -> nth_error h ap = Some x -> nth_error h a = Some v -> old_mem n h mem vm ->
  agrees n h (h_vh strategy c mem bo ap a) (vh_call (N := F64num) strategy c vm (mkVk (Some x) (Some bo) None) v) (result n).
Proof.
  intros n h strategy c mem vm bo ap a x v L LH LP X V O. pose proof (nth_lt _ _ _ _ V) as LA. unfold h_vh, vh_call. destruct (negb (vh_known strategy)); [apply agrees_fail|].
  destruct (String.eqb strategy "unmodified").
  { eapply agrees_bind; [apply h_clamp_spec; eassumption|]. intros h' y q E R. apply agrees_ret. split; [exact R|]. eapply old_at; eauto. }
  destruct (String.eqb strategy "adjust").
  { unfold h_adjust, vh_adjust. cbn [vk_position]. destruct mem as [am|], vm as [m|]; try contradiction.
    2:{ apply agrees_ret. split; [split; assumption|exact X]. }
    destruct O as [LM M]. rd. rd. destruct (negb (same_shape x m)) eqn:Sh.
    { try (match goal with |- agrees _ _ (if ?c then _ else _) _ _ => replace c with true by (symmetry; exact Sh) end). apply agrees_fail. }
    try (match goal with |- agrees _ _ (if ?c then _ else _) _ _ => replace c with false by (symmetry; exact Sh) end).
    apply agrees_alloc; [exact LH|]. eapply agrees_bind; [apply h_clamp_spec; [exact LH|rewrite app_length; simpl; lia|apply alloc_at]|].
    intros h' y q E R. apply agrees_ret. split; [exact R|]. cbn. eapply same_nth; [exact E|exact LP|]. rewrite nth_error_app1 by lia. exact X. }
  destruct (String.eqb strategy "invert").
  { eapply agrees_bind with (R := owned n); [|intros h' y q E R; apply agrees_ret; split; [exact R|]; eapply old_at; eauto].
    apply h_invert_spec; assumption. }
  eapply agrees_bind with (R := owned n); [|intros h' y q E R; apply agrees_ret; split; [exact R|]; eapply old_at; eauto].
  apply h_zero_spec; assumption.
Qed.
