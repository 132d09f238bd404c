(** Lists and matrices under a renumbering of the particles (C76). *)
From Coq Require Import String ZArith List Arith Bool Lia Permutation.
From Verif Require Import Prelude ListFacts F64 F64Facts Num Np NpFacts Handlers Swarms Operators Generators Topology Optimizers Spec SpecLike SpecMirror SpecShuffle MirrorFacts Like HandlerFacts.
Import ListNotations.
Local Open Scope string_scope.
Local Open Scope list_scope.
Local Open Scope nat_scope.

Lemma forallb_perm : forall A (p : A -> bool) l l', Permutation l l' -> forallb p l' = forallb p l.
Proof. intros A p l l' H. induction H; cbn; try congruence. rewrite !andb_assoc, (andb_comm (p x)). reflexivity. Qed.
Lemma existsb_perm : forall A (p : A -> bool) l l', Permutation l l' -> existsb p l' = existsb p l.
Proof. intros A p l l' H. induction H; cbn; try congruence. rewrite !orb_assoc, (orb_comm (p x)). reflexivity. Qed.
Lemma map2_combine : forall A B D (f : A -> B -> D) l m, map2 f l m = map (fun p => f (fst p) (snd p)) (combine l m).
Proof. intros A B D f. induction l as [|a l IH]; intros [|b m]; cbn; [reflexivity..|]. rewrite IH. reflexivity. Qed.
Lemma map3_combine : forall A B D E (f : A -> B -> D -> E) l m n, map3 f l m n = map (fun p => f (fst p) (fst (snd p)) (snd (snd p))) (combine l (combine m n)).
Proof. intros A B D E f. induction l as [|a l IH]; intros [|b m] [|c n]; cbn; [reflexivity..|]. rewrite IH. reflexivity. Qed.
Lemma nth_combine : forall A B (l : list A) (m : list B) i, nth_error (combine l m) i = match nth_error l i, nth_error m i with Some a, Some b => Some (a, b) | _, _ => None end.
Proof. intros A B. induction l as [|a l IH]; intros [|b m] [|i]; cbn; try reflexivity; [destruct (nth_error l i); reflexivity|apply IH]. Qed.
Lemma mapM_err : forall A B (f : A -> res B) l e, mapM f l = Err e -> exists a, In a l /\ f a = Err e.
Proof.
  intros A B f. induction l as [|a l IH]; cbn; intros e H; [discriminate|]. destruct (f a) eqn:E; cbn in H; [|injection H as <-; eauto].
  destruct (mapM f l); cbn in H; [discriminate|]. destruct (IH _ H) as (b & I & F). eauto.
Qed.

Section S.
Variable order : list nat.
Hypothesis PO : Permutation (seq 0 (length order)) order.
Notation n := (length order).
Notation sh := (shuffled order).
Lemma order_lt : forall i, In i order -> i < n.
Proof. intros i I. apply (Permutation_in _ (Permutation_sym PO)) in I. apply in_seq in I. lia. Qed.
Lemma order_in : forall i, i < n -> exists k, nth_error order k = Some i.
Proof. intros i L. apply In_nth_error. apply (Permutation_in _ PO). apply in_seq. lia. Qed.
Lemma sh_len : forall A (l l' : list A), sh l l' -> length l' = n.
Proof. intros A l l' [_ H]. symmetry. eapply Forall2_len; eauto. Qed.
Lemma sh_lens : forall A (l l' : list A), sh l l' -> length l' = length l.
Proof. intros A l l' H. rewrite (sh_len _ _ _ H). symmetry. apply H. Qed.
Lemma sh_nth : forall A (l l' : list A) k i, sh l l' -> nth_error order k = Some i -> nth_error l' k = nth_error l i.
Proof.
  intros A l l' k i [_ H]. clear PO. revert k. induction H as [|j x o l' J H IH]; intros [|k] E; cbn in *; try discriminate; [|apply IH; exact E].
  injection E as ->. symmetry. exact J.
Qed.
Lemma sh_intro : forall A (l l' : list A), length l = n -> length l' = n -> (forall k i, nth_error order k = Some i -> nth_error l' k = nth_error l i) -> sh l l'.
Proof.
  intros A l l' L L' H. split; [exact L|]. assert (B : forall i, In i order -> i < length l) by (intros i I; rewrite L; apply order_lt; exact I).
  clear PO L. revert l' L' H B. induction order as [|i o IH]; intros [|x l'] L' H B; cbn in L'; try discriminate; constructor.
  - specialize (H 0 i eq_refl). cbn in H. congruence.
  - apply IH; [lia| |intros j J; apply B; right; exact J]. intros k j E. exact (H (S k) j E).
Qed.
Lemma nth_seq_map : forall A (l : list A) d, l = map (fun i => nth i l d) (seq 0 (length l)).
Proof.
  intros A l d. induction l as [|a l IH]; cbn; [reflexivity|]. f_equal. rewrite <- seq_shift, map_map. exact IH.
Qed.
Lemma sh_perm : forall A (l l' : list A), sh l l' -> Permutation l l'.
Proof.
  intros A l l' [L H]. destruct l as [|d l]; [cbn in L; destruct order; [inversion H; constructor|discriminate]|].
  assert (E : l' = map (fun i => nth i (d :: l) d) order).
  { clear L PO. induction H as [|i x o l' I H IH]; [reflexivity|]. cbn [map]. f_equal; [|exact IH]. symmetry. apply nth_error_nth. exact I. }
  rewrite E, (nth_seq_map _ (d :: l) d) at 1. apply Permutation_map. rewrite L. exact PO.
Qed.
Lemma sh_map : forall A B (f : A -> B) l l', sh l l' -> sh (map f l) (map f l').
Proof.
  intros A B f l l' H. apply sh_intro; [rewrite map_length; apply H|rewrite map_length; eapply sh_len; eauto|].
  intros k i E. rewrite !nth_error_map. f_equal. apply sh_nth; assumption.
Qed.
Lemma sh_combine : forall A B (l l' : list A) (m m' : list B), sh l l' -> sh m m' -> sh (combine l m) (combine l' m').
Proof.
  intros A B l l' m m' H G. apply sh_intro; rewrite ?combine_length.
  - destruct H as [-> _], G as [-> _]. lia.
  - rewrite (sh_len _ _ _ H), (sh_len _ _ _ G). lia.
  - intros k i E. rewrite !nth_combine, (sh_nth _ _ _ _ _ H E), (sh_nth _ _ _ _ _ G E). reflexivity.
Qed.
Lemma sh_map2 : forall A B D (f : A -> B -> D) l l' m m', sh l l' -> sh m m' -> sh (map2 f l m) (map2 f l' m').
Proof. intros. rewrite !map2_combine. apply sh_map, sh_combine; assumption. Qed.
Lemma sh_map3 : forall A B D E (f : A -> B -> D -> E) l l' m m' p p', sh l l' -> sh m m' -> sh p p' -> sh (map3 f l m p) (map3 f l' m' p').
Proof. intros. rewrite !map3_combine. apply sh_map, sh_combine; [assumption|]. apply sh_combine; assumption. Qed.
Lemma sh_repeat : forall A (x : A), sh (repeat x n) (repeat x n).
Proof.
  intros A x. apply sh_intro; [apply repeat_length..|]. intros k i E. rewrite !nth_error_repeat; [reflexivity| |]; [apply order_lt; eapply nth_error_In; eauto|eapply nth_error_lt; eauto].
Qed.
Lemma sh_F2 : forall A B (R : A -> B -> Prop) l l' r, sh l l' -> Forall2 R l r -> exists r', sh r r' /\ Forall2 R l' r'.
Proof.
  intros A B R l l' r [L H] F. assert (LR : length r = n) by (rewrite <- L; symmetry; eapply Forall2_len; eauto).
  assert (X : exists r', Forall2 (fun i x => nth_error r i = Some x) order r' /\ Forall2 R l' r').
  { clear L LR PO. induction H as [|i x o l' I H IH]; [exists []; split; constructor|]. destruct IH as (r' & H1 & H2).
    assert (Y : exists y, nth_error r i = Some y /\ R x y).
    { clear -F I. revert i I. induction F as [|a b l r RR F IH]; intros [|i] I; cbn in *; try discriminate; [injection I as <-; eauto|eauto]. }
    destruct Y as (y & Y1 & Y2). exists (y :: r'). split; constructor; assumption. }
  destruct X as (r' & X1 & X2). exists r'. split; [split; assumption|exact X2].
Qed.
Lemma sh_mapM : forall A B (f : A -> res B) e0 l l', (forall x e, f x = Err e -> e = e0) -> sh l l' -> RR sh (mapM f l) (mapM f l').
Proof.
  intros A B f e0 l l' HE H. destruct (mapM f l) as [r|e] eqn:E.
  - apply mapM_Ok in E. destruct (sh_F2 _ _ _ _ _ _ H E) as (r' & H1 & H2). apply mapM_Ok in H2. rewrite H2. exact H1.
  - destruct (mapM_err _ _ _ _ _ E) as (a & I & F). destruct (mapM f l') as [r'|e'] eqn:E'.
    + apply mapM_Ok in E'. apply (Permutation_in _ (sh_perm _ _ _ H)) in I. exfalso. clear -E' I F. induction E' as [|x y l' r' X E' IH]; [contradiction|]. destruct I as [->|I]; [congruence|auto].
    + destruct (mapM_err _ _ _ _ _ E') as (a' & I' & F'). cbn. rewrite (HE _ _ F), (HE _ _ F'). reflexivity.
Qed.
Lemma sh_shape : forall A B (l l' : list (list A)) (m m' : list (list B)), sh l l' -> sh m m' -> same_shape l' m' = same_shape l m.
Proof.
  intros A B l l' m m' H G. unfold same_shape. rewrite (sh_lens _ _ _ H), (sh_lens _ _ _ G). f_equal. apply forallb_perm. eapply sh_perm. apply sh_combine; eassumption.
Qed.
Lemma sh_forallb : forall A (p : A -> bool) l l', sh l l' -> forallb p l' = forallb p l.
Proof. intros. apply forallb_perm, sh_perm. assumption. Qed.
Lemma sh_existsb : forall A (p : A -> bool) l l', sh l l' -> existsb p l' = existsb p l.
Proof. intros. apply existsb_perm, sh_perm. assumption. Qed.

(** *** Boundary and velocity handlers *)
Definition mem2 (x y : fmatrix * option fmatrix) : Prop := sh (fst x) (fst y) /\ maybe sh (snd x) (snd y).
Lemma out_sh : forall (b : bounds F64num) (X X' : fmatrix), sh X X' -> any_out (N := F64num) X' b = any_out (N := F64num) X b.
Proof. intros b X X' H. unfold any_out. apply sh_existsb. exact H. Qed.
Lemma reflective_sh : forall fuel (b : bounds F64num) (X X' : fmatrix), sh X X' -> RR sh (reflective_loop (N := F64num) fuel b X) (reflective_loop (N := F64num) fuel b X').
Proof.
  induction fuel as [|f IH]; intros b X X' H; cbn [reflective_loop]; rewrite (out_sh _ _ _ H); destruct (any_out X b); try exact H; [reflexivity|].
  apply IH. apply sh_map. exact H.
Qed.
Lemma bh_sh : forall st dr mem mem' (b : bounds F64num) (X X' : fmatrix), sh X X' -> maybe sh mem mem' ->
  RR mem2 (bh_call (N := F64num) st dr mem b X) (bh_call (N := F64num) st dr mem' b X').
Proof.
  intros st dr mem mem' b X X' H M. unfold bh_call. destruct (negb (bh_known st)); [reflexivity|].
  unfold bounds_fit. rewrite (sh_forallb _ _ _ _ H). destruct (negb (_ && _)); [reflexivity|].
  destruct (String.eqb st "nearest"); [split; [apply sh_map; exact H|exact M]|].
  destruct (String.eqb st "reflective").
  { unfold reflective. rewrite (out_sh _ _ _ H). destruct (any_out X b && _); [reflexivity|]. eapply RR_bind; [apply reflective_sh; exact H|]. intros a a' A. split; [exact A|exact M]. }
  destruct (String.eqb st "shrink").
  { unfold shrink. destruct mem as [m|], mem' as [m'|]; try contradiction; [|split; exact H]. cbn [maybe] in M. destruct (negb (b_arr b)); [reflexivity|]. rewrite (sh_shape _ _ _ _ _ _ H M). destruct (negb _); [reflexivity|].
    eapply RR_bind; [eapply (sh_mapM _ _ _ ValueError); [|apply sh_combine; eassumption]|intros a a' A; split; exact A].
    intros [x y] e E. unfold shrink_row in E. cbn [fst snd] in E. destruct (np_min _) eqn:N; cbn in E; [discriminate|]. apply np_min_err in N. destruct N as [_ N]. congruence. }
  destruct (String.eqb st "random").
  { unfold random_bh. rewrite (sh_forallb _ _ _ _ H). destruct (negb _); [reflexivity|]. cbn. split; [apply sh_map; exact H|exact M]. }
  destruct (String.eqb st "intermediate"); [|split; [apply sh_map; exact H|exact M]].
  unfold intermediate. destruct mem as [m|], mem' as [m'|]; try contradiction; [|split; exact H]. cbn [maybe] in M. destruct (negb (b_arr b)); [reflexivity|]. rewrite (sh_shape _ _ _ _ _ _ H M). destruct (negb _); [reflexivity|].
  cbn. split; apply sh_map2; assumption.
Qed.
Lemma clamp_sh : forall cl (V V' : fmatrix), sh V V' -> RR sh (maybe_clamp (N := F64num) cl V) (maybe_clamp (N := F64num) cl V').
Proof.
  intros [cl|] V V' H; [|exact H]. unfold maybe_clamp, apply_clamp, clamp_fit. rewrite (sh_forallb _ _ _ _ H). destruct (forallb _ V); [|reflexivity]. cbn. apply sh_map. exact H.
Qed.
Lemma vget_sh : forall (b : option (bounds F64num)) (X X' : fmatrix), sh X X' -> RR (fun x y => sh (fst x) (fst y) /\ snd y = snd x)
  (vk_get (N := F64num) (mkVk (N := F64num) (Some X) (Some b) None)) (vk_get (N := F64num) (mkVk (N := F64num) (Some X') (Some b) None)).
Proof.
  intros [b|] X X' H; [|reflexivity]. unfold vk_get, bounds_fit. cbn [vk_position vk_bounds]. rewrite (sh_forallb _ _ _ _ H). destruct (_ && _); [|reflexivity]. split; [exact H|reflexivity].
Qed.
Lemma vh_sh : forall st cl mem mem' b (X X' V V' : fmatrix), sh X X' -> sh V V' -> maybe sh mem mem' ->
  RR mem2 (vh_call (N := F64num) st cl mem (mkVk (N := F64num) (Some X) (Some b) None) V) (vh_call (N := F64num) st cl mem' (mkVk (N := F64num) (Some X') (Some b) None) V').
Proof.
  intros st cl mem mem' b X X' V V' H G M. unfold vh_call. destruct (negb (vh_known st)); [reflexivity|].
  destruct (String.eqb st "unmodified"); [eapply RR_bind; [apply clamp_sh; exact G|]; intros a a' A; split; assumption|].
  destruct (String.eqb st "adjust").
  { unfold vh_adjust. cbn [vk_position]. destruct mem as [m|], mem' as [m'|]; try contradiction; [|split; assumption]. cbn [maybe] in M. rewrite (sh_shape _ _ _ _ _ _ H M). destruct (negb _); [reflexivity|].
    eapply RR_bind; [apply clamp_sh, sh_map2; eassumption|]. intros a a' A. split; assumption. }
  destruct (String.eqb st "invert").
  - unfold vh_invert. cbn [vk_z]. eapply RR_bind; [|intros a a' A; split; [exact A|exact M]]. eapply RR_bind; [apply vget_sh; exact H|]. intros [p bb] [p' bb'] [P E]. cbn [fst snd] in P, E. subst bb'.
    rewrite (sh_shape _ _ _ _ _ _ G P). destruct (negb _); [reflexivity|]. apply clamp_sh, sh_map2; assumption.
  - unfold vh_zero. eapply RR_bind; [|intros a a' A; split; [exact A|exact M]]. eapply RR_bind; [apply vget_sh; exact H|]. intros [p bb] [p' bb'] [P E]. cbn [fst snd] in P, E. subst bb'.
    rewrite (sh_shape _ _ _ _ _ _ G P). destruct (negb _); [reflexivity|]. cbn. apply sh_map2; assumption.
Qed.
Lemma velocity_zip : forall (c1 c2 w : f64) (u1 u2 x v p b : fmatrix), velocity_mat (N := F64num) c1 c2 w u1 u2 x v p b =
  map (fun t => velocity_row (N := F64num) c1 c2 w (fst t) (fst (snd t)) (fst (snd (snd t))) (fst (snd (snd (snd t)))) (fst (snd (snd (snd (snd t))))) (snd (snd (snd (snd (snd t))))))
    (combine u1 (combine u2 (combine x (combine v (combine p b))))).
Proof. intros c1 c2 w. induction u1 as [|a u1 IH]; intros [|a2 u2] [|a3 x] [|a4 v] [|a5 p] [|a6 b]; try reflexivity. cbn. rewrite IH. reflexivity. Qed.
End S.
