(** Facts about the numpy primitives of [Np] at binary64. *)
From Coq Require Import List Arith Bool Lia Reals Lra.
From Verif Require Import F64 F64Facts Prelude ListFacts Num Np.
Import ListNotations.

Definition nonan (l : list f64) : Prop := Forall (fun x => fisnan x = false) l.

Lemma nonan_nth : forall l i x, nonan l -> nth_error l i = Some x -> fisnan x = false.
Proof. intros l i x H E. apply nth_error_In in E. unfold nonan in H. rewrite Forall_forall in H. auto. Qed.

Lemma np_min_fold : forall l x, fisnan x = false -> nonan l ->
  let m := fold_left (np_min2 (N := F64num)) l x in
  (m = x \/ In m l) /\ fle m x = true /\ (forall y, In y l -> fle m y = true) /\ fisnan m = false.
Proof.
  induction l; simpl; intros x Hx Hl.
  - repeat split; auto using fle_refl; tauto.
  - inversion Hl as [|? ? Ha Hl']; subst. 
    assert (Q : np_min2 (N := F64num) x a = if fle x a then x else a).
    { unfold np_min2. simpl. rewrite Hx, orb_false_r. reflexivity. }
    rewrite Q.
    destruct (fle x a) eqn:E.
    + destruct (IHl x Hx Hl') as (H1 & H2 & H3 & H4). repeat split; auto.
      * destruct H1; auto.
      * intros y [<-|I]; auto. eapply fle_trans; eauto.
    + destruct (IHl a Ha Hl') as (H1 & H2 & H3 & H4). repeat split; auto.
      * destruct H1; auto.
      * eapply fle_trans; eauto. forder.
      * intros y [<-|I]; auto.
Qed.

Lemma np_min_spec : forall l m, nonan l -> np_min (N := F64num) l = Ok m ->
  In m l /\ (forall y, In y l -> fle m y = true) /\ fisnan m = false.
Proof.
  intros [|x l] m H E; simpl in E; try discriminate. injection E as <-.
  inversion H; subst. destruct (np_min_fold l x) as (H1 & H2' & H3' & H4); auto.
  repeat split; auto.
  - simpl. destruct H1; auto.
  - intros y [<-|I]; auto.
Qed.
Lemma np_min_ok : forall (l : list f64), l <> [] -> exists m, np_min (N := F64num) l = Ok m.
Proof. intros [|x l] H; simpl; eauto. congruence. Qed.
Lemma np_min_err : forall (l : list f64) e, np_min (N := F64num) l = Err e -> l = [] /\ e = ValueError.
Proof. intros [|x l] e H; simpl in H; split; congruence. Qed.

Lemma argmin_from_spec : forall l pre best besti,
  fisnan best = false -> nonan l ->
  nth_error pre besti = Some best ->
  (forall j y, nth_error pre j = Some y -> fle best y = true) ->
  (forall j y, j < besti -> nth_error pre j = Some y -> flt best y = true) ->
  let k := argmin_from (N := F64num) best besti (length pre) l in
  exists x, nth_error (pre ++ l) k = Some x /\
    (forall j y, nth_error (pre ++ l) j = Some y -> fle x y = true) /\
    (forall j y, j < k -> nth_error (pre ++ l) j = Some y -> flt x y = true).
Proof.
  induction l as [|a l IH]; intros pre best besti Hb Hl Hn Hle Hlt k; subst k; simpl; rewrite Hb.
  - rewrite app_nil_r. exists best. auto.
  - inversion Hl as [|? ? Ha Hl']; subst.
    assert (EQ : pre ++ a :: l = (pre ++ [a]) ++ l) by (rewrite <- app_assoc; reflexivity).
    assert (LEN : S (length pre) = length (pre ++ [a])) by (rewrite app_length; simpl; lia).
    rewrite EQ, LEN. destruct (fle best a) eqn:E.
    + apply IH; auto.
      * rewrite nth_error_app1; auto. eapply nth_error_lt; eauto.
      * intros j y. destruct (Nat.lt_ge_cases j (length pre)).
        -- rewrite nth_error_app1 by auto. eauto.
        -- rewrite nth_error_app2 by auto. destruct (j - length pre) as [|[|]]; simpl; try discriminate.
           intros Q; injection Q as <-; auto.
      * intros j y Hj. pose proof (nth_error_lt _ _ _ Hn). rewrite nth_error_app1 by lia. eauto.
    + apply IH; auto.
      * rewrite nth_error_app2, Nat.sub_diag by auto. reflexivity.
      * intros j y. destruct (Nat.lt_ge_cases j (length pre)).
        -- rewrite nth_error_app1 by auto. intros Q. apply Hle in Q. forder.
        -- rewrite nth_error_app2 by auto. destruct (j - length pre) as [|[|]]; simpl; try discriminate.
           intros Q; injection Q as <-; auto. apply fle_refl; auto.
      * intros j y Hj. rewrite nth_error_app1 by auto. intros Q. apply Hle in Q. forder.
Qed.

(** First index of a minimum. *)
Lemma np_argmin_spec : forall l k, nonan l -> np_argmin (N := F64num) l = Ok k ->
  exists x, nth_error l k = Some x /\
    (forall j y, nth_error l j = Some y -> fle x y = true) /\
    (forall j y, j < k -> nth_error l j = Some y -> flt x y = true).
Proof.
  intros [|x l] k H E; simpl in E; try discriminate. injection E as <-.
  inversion H; subst.
  apply (argmin_from_spec l [x] x 0); auto; intros [|j] y; simpl; try (destruct j; discriminate); try lia.
  intros Q; injection Q as <-. apply fle_refl; auto.
Qed.
Lemma np_argmin_ok : forall (l : list f64), l <> [] -> exists k, np_argmin (N := F64num) l = Ok k.
Proof. intros [|x l] H; simpl; eauto. congruence. Qed.
Lemma argmin_from_lt : forall (l : list f64) best besti i, besti < i ->
  argmin_from (N := F64num) best besti i l < i + length l.
Proof.
  induction l; intros; simpl; destruct (fisnan best); try lia.
  destruct (fle best a).
  - specialize (IHl best besti (S i)). lia.
  - specialize (IHl a i (S i)). lia.
Qed.
Lemma np_argmin_lt : forall (l : list f64) k, np_argmin (N := F64num) l = Ok k -> k < length l.
Proof.
  intros [|x l] k E; simpl in E; try discriminate. injection E as <-.
  apply (argmin_from_lt l x 0 1). lia.
Qed.

Lemma np_take_Ok : forall {A} (l : list A) idx r, np_take l idx = Ok r ->
  Forall2 (fun i x => nth_error l i = Some x) idx r.
Proof.
  unfold np_take. intros A l idx r H. apply mapM_Ok in H. induction H; constructor; auto.
  apply of_option_Ok in H. auto.
Qed.
Lemma np_take_ok : forall {A} (l : list A) idx, Forall (fun i => i < length l) idx ->
  exists r, np_take l idx = Ok r.
Proof.
  unfold np_take. induction idx; simpl; intros H; eauto. inversion H; subst.
  destruct (nth_error_ex l a H2) as [x ->]. simpl. destruct (IHidx H3) as [r ->]. simpl. eauto.
Qed.
Lemma np_take_In : forall {A} (l : list A) idx r x, np_take l idx = Ok r -> In x r -> In x l.
Proof.
  intros A l idx r x H I. apply np_take_Ok in H. induction H; simpl in *; [tauto|].
  destruct I as [<-|I]; auto. eapply nth_error_In; eauto.
Qed.
Lemma np_take_nonan : forall l idx r, nonan l -> np_take l idx = Ok r -> nonan r.
Proof.
  intros l idx r H E. apply Forall_forall. intros x I. unfold nonan in H. rewrite Forall_forall in H.
  apply H. eapply np_take_In; eauto.
Qed.

(** array_split *)
Lemma split_sizes_concat : forall {A} sizes (l : list A), list_sum sizes = length l ->
  concat (split_sizes sizes l) = l.
Proof.
  induction sizes; simpl; intros l H.
  - destruct l; simpl in *; congruence.
  - rewrite IHsizes; [apply firstn_skipn|]. rewrite skipn_length. lia.
Qed.
Lemma list_sum_repeat : forall x n, list_sum (repeat x n) = n * x.
Proof. induction n; simpl; lia. Qed.
Lemma chunk_sizes_sum : forall len n, n <> 0 -> list_sum (chunk_sizes len n) = len.
Proof.
  intros len n H. unfold chunk_sizes. rewrite list_sum_app, !list_sum_repeat.
  pose proof (Nat.div_mod len n H). pose proof (Nat.mod_upper_bound len n H). nia.
Qed.
Lemma array_split_concat : forall {A} (l : list A) n, n <> 0 -> concat (array_split l n) = l.
Proof. intros. apply split_sizes_concat. apply chunk_sizes_sum; auto. Qed.
Lemma split_sizes_length : forall {A} sizes (l : list A), length (split_sizes sizes l) = length sizes.
Proof. induction sizes; simpl; auto. Qed.
Lemma split_sizes_lens : forall {A} sizes (l : list A), list_sum sizes <= length l ->
  map (@length A) (split_sizes sizes l) = sizes.
Proof.
  induction sizes; simpl; intros l H; auto. rewrite firstn_length, IHsizes.
  - f_equal. lia.
  - rewrite skipn_length. lia.
Qed.
Lemma chunk_sizes_length : forall len n, n <> 0 -> length (chunk_sizes len n) = n.
Proof.
  intros. unfold chunk_sizes. rewrite app_length, !repeat_length.
  pose proof (Nat.mod_upper_bound len n H). lia.
Qed.
