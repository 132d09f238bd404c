(** The options strategies over the reals. *)
From Coq Require Import String ZArith List Arith Bool Reals Lra Lia Psatz.
From Flocq Require Import Core.
From Verif Require Import Prelude ListFacts F64 Num Np Handlers SpecOpts OptFacts.
Import ListNotations.
Local Open Scope string_scope.
Local Open Scope list_scope.
Local Open Scope R_scope.

Lemma mix_between : forall s e f, 0 <= f <= 1 -> between s e (e + (s - e) * f).
Proof. intros s e f H. unfold between, Rmin, Rmax. destruct (Rle_dec s e); nra. Qed.
Lemma mix_towards : forall s e f1 f2, 0 <= f2 <= f1 -> between (e + (s - e) * f1) e (e + (s - e) * f2).
Proof.
  intros s e f1 f2 H. unfold between. destruct (Rle_or_lt s e) as [L|L].
  - assert (A : (s - e) * f1 <= (s - e) * f2 <= 0) by (split; nra). rewrite Rmin_left, Rmax_right; lra.
  - assert (A : 0 <= (s - e) * f2 <= (s - e) * f1) by (split; nra). rewrite Rmin_right, Rmax_left; lra.
Qed.

(** *** lin_variation *)
Lemma lin_value : forall (start : options Rnum) opt k (s e : R) i m, holds start opt s -> has_defaults start -> ends_at start k opt e ->
  ok_iternow k = Some i -> ok_itermax k = Some m -> (0 < m)%Z ->
  oh_lin_variation start opt k = Ok (e + (s - e) * (IZR (m - i) / IZR m)).
Proof.
  intros start opt k s e i m S D E I M Pm.
  assert (V : new_value (mkOhLib (N := Rnum) exp Rpower (fun _ => 0)) start k opt "lin_variation"
     (@nadd Rnum e (@ndiv Rnum (@nmul Rnum (@nsub Rnum s e) (@nofZ Rnum (m - i))) (@nofZ Rnum m)))).
  { eapply NV_lin; eauto. lia. }
  apply oh_one_complete in V. cbn [oh_one String.eqb Ascii.eqb Bool.eqb] in V. etransitivity; [exact V|].
  f_equal. cbn. field. apply IZR_neq. lia.
Qed.
Lemma lin_fraction : forall i m, (0 <= i <= m)%Z -> (0 < m)%Z -> 0 <= IZR (m - i) / IZR m <= 1.
Proof.
  intros i m H P. assert (Pm : 0 < IZR m) by (apply (IZR_lt 0); auto). assert (A : 0 <= IZR (m - i)) by (apply (IZR_le 0); lia).
  assert (B : IZR (m - i) <= IZR m) by (apply IZR_le; lia). split.
  - apply Rmult_le_pos; auto. left. apply Rinv_0_lt_compat; auto.
  - apply (Rmult_le_reg_r (IZR m)); auto. unfold Rdiv. rewrite Rmult_assoc, Rinv_l; lra.
Qed.
Lemma lin_interpolates : forall (start : options Rnum) opt k (s e : R) i m, holds start opt s -> has_defaults start -> ends_at start k opt e ->
  ok_iternow k = Some i -> ok_itermax k = Some m -> (0 < m)%Z ->
  exists x : R, oh_lin_variation start opt k = Ok x /\ (i = 0%Z -> x = s) /\ (i = m -> x = e) /\ ((0 <= i <= m)%Z -> between s e x).
Proof.
  intros start opt k s e i m S D E I M Pm. eexists. split; [eapply lin_value; eauto|].
  assert (P : IZR m <> 0) by (apply IZR_neq; lia). split; [|split].
  - intros ->. rewrite Z.sub_0_r. field. auto.
  - intros ->. rewrite Z.sub_diag. field. auto.
  - intros H. apply mix_between, lin_fraction; auto.
Qed.
Lemma lin_monotone : forall (start : options Rnum) opt k1 k2 (s e x1 x2 : R) i1 i2 m, holds start opt s -> has_defaults start ->
  ends_at start k1 opt e -> ends_at start k2 opt e ->
  ok_iternow k1 = Some i1 -> ok_iternow k2 = Some i2 -> ok_itermax k1 = Some m -> ok_itermax k2 = Some m -> (0 <= i1 <= i2)%Z -> (i2 <= m)%Z -> (0 < m)%Z ->
  oh_lin_variation start opt k1 = Ok x1 -> oh_lin_variation start opt k2 = Ok x2 -> between x1 e x2.
Proof.
  intros start opt k1 k2 s e x1 x2 i1 i2 m S D E1 E2 I1 I2 M1 M2 L1 L2 Pm X1 X2.
  pose proof (eq_trans (eq_sym X1) (lin_value _ _ _ _ _ _ _ S D E1 I1 M1 Pm)) as Q1. injection Q1 as ->.
  pose proof (eq_trans (eq_sym X2) (lin_value _ _ _ _ _ _ _ S D E2 I2 M2 Pm)) as Q2. injection Q2 as ->.
  apply mix_towards. destruct (lin_fraction i2 m) as [A _]; [lia|auto|]. split; auto.
  assert (Pm' : 0 < IZR m) by (apply (IZR_lt 0); auto). unfold Rdiv. apply Rmult_le_compat_r. { left. apply Rinv_0_lt_compat; auto. }
  apply IZR_le. lia.
Qed.

(** *** nonlin_mod *)
Definition index_n (k : oh_kwargs Rnum) (n : R) : Prop := ok_n k = Some (n : Rnum) \/ ok_n k = None /\ n = 12 / 10.
Lemma pow_pos_lib : forall lib x n, real_lib lib -> 0 < x -> 0 < l_pow lib x n.
Proof. intros lib x n (_ & L & _) H. rewrite L by auto. apply exp_pos. Qed.
Lemma nonlin_value : forall lib (start : options Rnum) opt k (s e n : R) i m, real_lib lib -> holds start opt s -> has_defaults start -> ends_at start k opt e ->
  ok_iternow k = Some i -> ok_itermax k = Some m -> (0 < m)%Z -> (i <= m)%Z -> index_n k n ->
  oh_nonlin_mod lib start opt k = Ok (e + (s - e) * (l_pow lib (IZR (m - i)) n / l_pow lib (IZR m) n)).
Proof.
  intros lib start opt k s e n i m RL S D E I M Pm Li Nn.
  assert (V : new_value lib start k opt "nonlin_mod"
     (@nadd Rnum e (@nmul Rnum (@nsub Rnum s e) (@ndiv Rnum (l_pow lib (@nofZ Rnum (m - i)) n) (l_pow lib (@nofZ Rnum m) n))))).
  { eapply NV_nonlin; eauto. cbn. apply Req_bool_false. pose proof (pow_pos_lib lib (IZR m) n RL (IZR_lt 0 m Pm)). apply Rgt_not_eq. exact H. }
  apply oh_one_complete in V. cbn [oh_one String.eqb Ascii.eqb Bool.eqb] in V. exact V.
Qed.
Lemma pow_fraction : forall lib n i1 i2 m, real_lib lib -> 0 < n -> (0 <= i1 <= i2)%Z -> (i2 <= m)%Z -> (0 < m)%Z ->
  0 <= l_pow lib (IZR (m - i2)) n / l_pow lib (IZR m) n <= l_pow lib (IZR (m - i1)) n / l_pow lib (IZR m) n /\
  l_pow lib (IZR (m - i1)) n / l_pow lib (IZR m) n <= 1.
Proof.
  intros lib n i1 i2 m RL Pn L1 L2 Pm. pose proof RL as (_ & P & Z0).
  assert (Mono : forall a b, (0 <= a <= b)%Z -> 0 <= l_pow lib (IZR a) n <= l_pow lib (IZR b) n).
  { intros a b H. destruct (Z.eq_dec a 0) as [->|Na].
    - rewrite Z0 by auto. split; [lra|]. destruct (Z.eq_dec b 0) as [->|Nb]; [rewrite Z0 by auto; lra|].
      left. apply pow_pos_lib; auto. apply (IZR_lt 0); lia.
    - assert (A : 0 < IZR a) by (apply (IZR_lt 0); lia). assert (B : IZR a <= IZR b) by (apply IZR_le; lia).
      split; [left; apply pow_pos_lib; auto|]. rewrite !P by lra. apply Rle_Rpower_l; lra. }
  assert (D : 0 < l_pow lib (IZR m) n) by (apply pow_pos_lib; auto; apply (IZR_lt 0); auto).
  assert (ID : 0 < / l_pow lib (IZR m) n) by (apply Rinv_0_lt_compat; auto).
  destruct (Mono (m - i2)%Z (m - i1)%Z) as [A B]; [lia|]. destruct (Mono (m - i1)%Z m) as [_ C]; [lia|]. unfold Rdiv. split; [split|].
  - apply Rmult_le_pos; lra.
  - apply Rmult_le_compat_r; lra.
  - apply (Rmult_le_reg_r (l_pow lib (IZR m) n)); auto. rewrite Rmult_assoc, Rinv_l; lra.
Qed.
Lemma nonlin_interpolates : forall lib (start : options Rnum) opt k (s e n : R) i m, real_lib lib -> holds start opt s -> has_defaults start -> ends_at start k opt e ->
  ok_iternow k = Some i -> ok_itermax k = Some m -> (0 < m)%Z -> (0 <= i <= m)%Z -> index_n k n -> 0 < n ->
  exists x : R, oh_nonlin_mod lib start opt k = Ok x /\ (i = 0%Z -> x = s) /\ (i = m -> x = e) /\ between s e x.
Proof.
  intros lib start opt k s e n i m RL S D E I M Pm Li Nn Pn. eexists. split; [eapply nonlin_value; eauto; lia|].
  assert (P : 0 < l_pow lib (IZR m) n) by (apply pow_pos_lib; auto; apply (IZR_lt 0); auto). split; [|split].
  - intros ->. rewrite Z.sub_0_r. field. lra.
  - intros ->. rewrite Z.sub_diag. destruct RL as (_ & _ & Z0). rewrite Z0 by auto. field. lra.
  - apply mix_between. destruct (pow_fraction lib n i i m) as [[A _] B]; auto; lia.
Qed.
Lemma nonlin_monotone : forall lib (start : options Rnum) opt k1 k2 (s e n x1 x2 : R) i1 i2 m, real_lib lib -> holds start opt s -> has_defaults start ->
  ends_at start k1 opt e -> ends_at start k2 opt e -> index_n k1 n -> index_n k2 n -> 0 < n ->
  ok_iternow k1 = Some i1 -> ok_iternow k2 = Some i2 -> ok_itermax k1 = Some m -> ok_itermax k2 = Some m -> (0 <= i1 <= i2)%Z -> (i2 <= m)%Z -> (0 < m)%Z ->
  oh_nonlin_mod lib start opt k1 = Ok x1 -> oh_nonlin_mod lib start opt k2 = Ok x2 -> between x1 e x2.
Proof.
  intros lib start opt k1 k2 s e n x1 x2 i1 i2 m RL S D E1 E2 N1 N2 Pn I1 I2 M1 M2 L1 L2 Pm X1 X2.
  pose proof (eq_trans (eq_sym X1) (nonlin_value _ _ _ _ _ _ _ _ _ RL S D E1 I1 M1 Pm (Z.le_trans _ _ _ (proj2 L1) L2) N1)) as Q1. injection Q1 as ->.
  pose proof (eq_trans (eq_sym X2) (nonlin_value _ _ _ _ _ _ _ _ _ RL S D E2 I2 M2 Pm L2 N2)) as Q2. injection Q2 as ->.
  apply mix_towards. apply (pow_fraction lib n i1 i2 m); auto.
Qed.

(** *** exp_decay *)
Definition d1_is (k : oh_kwargs Rnum) (x : R) : Prop := ok_d1 k = Some (x : Rnum) \/ ok_d1 k = None /\ x = 2 / 10.
Definition d2_is (k : oh_kwargs Rnum) (x : R) : Prop := ok_d2 k = Some (x : Rnum) \/ ok_d2 k = None /\ x = 7.
Lemma exp_den : forall d2 i m, 0 <= d2 -> (0 <= i)%Z -> (0 < m)%Z -> 1 <= 1 + d2 * IZR i / IZR m.
Proof.
  intros d2 i m D I M. assert (A : 0 <= IZR i) by (apply (IZR_le 0); auto). assert (B : 0 < / IZR m) by (apply Rinv_0_lt_compat, (IZR_lt 0); auto).
  assert (C : 0 <= d2 * IZR i * / IZR m) by (apply Rmult_le_pos; [apply Rmult_le_pos|]; lra). unfold Rdiv. lra.
Qed.
Lemma exp_value : forall lib (start : options Rnum) opt k (s e d1 d2 : R) i m, real_lib lib -> holds start opt s -> has_defaults start -> ends_at start k opt e ->
  ok_iternow k = Some i -> ok_itermax k = Some m -> d1_is k d1 -> d2_is k d2 -> 0 <= d2 -> (0 <= i)%Z -> (0 < m)%Z ->
  oh_exp_decay lib start opt k = Ok ((s - e - d1) * exp (1 / (1 + d2 * IZR i / IZR m))).
Proof.
  intros lib start opt k s e d1 d2 i m RL S D E I M D1 D2 P2 Pi Pm. pose proof (exp_den d2 i m P2 Pi Pm) as DN.
  assert (V : new_value lib start k opt "exp_decay" (@nmul Rnum (@nsub Rnum (@nsub Rnum s e) d1)
     (l_exp lib (@ndiv Rnum (@nofZ Rnum 1) (@nadd Rnum (@nofZ Rnum 1) (@ndiv Rnum (@nmul Rnum d2 (@nofZ Rnum i)) (@nofZ Rnum m))))))).
  { eapply NV_exp; eauto; [lia|]. cbn. apply Req_bool_false. lra. }
  apply oh_one_complete in V. cbn [oh_one String.eqb Ascii.eqb Bool.eqb] in V. etransitivity; [exact V|].
  f_equal. cbn. f_equal. apply RL.
Qed.
Lemma exp_strict : forall lib (start : options Rnum) opt k1 k2 (s e d1 d2 x1 x2 : R) i1 i2 m, real_lib lib -> holds start opt s -> has_defaults start ->
  ends_at start k1 opt e -> ends_at start k2 opt e -> d1_is k1 d1 -> d1_is k2 d1 -> d2_is k1 d2 -> d2_is k2 d2 -> 0 < d2 ->
  ok_iternow k1 = Some i1 -> ok_iternow k2 = Some i2 -> ok_itermax k1 = Some m -> ok_itermax k2 = Some m -> (0 <= i1 < i2)%Z -> (0 < m)%Z ->
  oh_exp_decay lib start opt k1 = Ok x1 -> oh_exp_decay lib start opt k2 = Ok x2 -> (x2 < x1 <-> 0 < s - e - d1).
Proof.
  intros lib start opt k1 k2 s e d1 d2 x1 x2 i1 i2 m RL S D E1 E2 A1 A2 B1 B2 P2 I1 I2 M1 M2 L Pm X1 X2.
  assert (P1 : (0 <= i1)%Z) by lia. assert (P3 : (0 <= i2)%Z) by lia.
  pose proof (eq_trans (eq_sym X1) (exp_value _ _ _ _ _ _ _ _ _ _ RL S D E1 I1 M1 A1 B1 (Rlt_le _ _ P2) P1 Pm)) as Q1. injection Q1 as ->.
  pose proof (eq_trans (eq_sym X2) (exp_value _ _ _ _ _ _ _ _ _ _ RL S D E2 I2 M2 A2 B2 (Rlt_le _ _ P2) P3 Pm)) as Q2. injection Q2 as ->.
  pose proof (exp_den d2 i1 m (Rlt_le _ _ P2) P1 Pm) as N1.
  assert (LT : 1 + d2 * IZR i1 / IZR m < 1 + d2 * IZR i2 / IZR m).
  { assert (0 < / IZR m) by (apply Rinv_0_lt_compat, (IZR_lt 0); auto). assert (IZR i1 < IZR i2) by (apply IZR_lt; lia).
    unfold Rdiv. apply Rplus_lt_compat_l, Rmult_lt_compat_r; auto. apply Rmult_lt_compat_l; auto. }
  assert (EX : exp (1 / (1 + d2 * IZR i2 / IZR m)) < exp (1 / (1 + d2 * IZR i1 / IZR m))).
  { apply exp_increasing. unfold Rdiv at 1 3. rewrite !Rmult_1_l. apply Rinv_lt_contravar; auto. apply Rmult_lt_0_compat; lra. }
  set (f1 := exp (1 / (1 + d2 * IZR i1 / IZR m))) in *. set (f2 := exp (1 / (1 + d2 * IZR i2 / IZR m))) in *. clearbody f1 f2.
  split; intros H; nra.
Qed.
(** With the default end value of [c2] the result is negative. *)
Lemma exp_c2_negative : forall lib (start : options Rnum) k (s d1 d2 : R) i m, real_lib lib -> holds start "c2" s -> has_defaults start ->
  (forall e, ok_end k = Some e -> dget e "c2" = None) ->
  ok_iternow k = Some i -> ok_itermax k = Some m -> d1_is k d1 -> d2_is k d2 -> 0 < d1 -> 0 <= d2 -> (0 <= i)%Z -> (0 < m)%Z ->
  exists x : R, oh_exp_decay lib start "c2" k = Ok x /\ x < 0.
Proof.
  intros lib start k s d1 d2 i m RL S D NE I M D1 D2 P1 P2 Pi Pm. eexists. split.
  - eapply (exp_value lib start "c2" k s (1 * s) d1 d2 i m); eauto. right. split; auto. right; right. split; auto. exists s. auto.
  - pose proof (exp_pos (1 / (1 + d2 * IZR i / IZR m))). nra.
Qed.
(** The documented interval is left: w from 0.9 to 0.4, iteration 7 of 8. *)
Definition w_start : options Rnum := [("c1", PFloat (5 / 10 : Rnum)); ("c2", PFloat (3 / 10 : Rnum)); ("w", PFloat (9 / 10 : Rnum))].
Definition w_kw (i m : Z) : oh_kwargs Rnum := mkOk (N := Rnum) (Some i) (Some m) None None None None.
Lemma w_start_facts : has_defaults w_start /\ holds w_start "w" (9 / 10 : Rnum) /\ NoDup (dkeys w_start) /\ forall i m, ends_at w_start (w_kw i m) "w" (4 / 10 : Rnum).
Proof.
  split; [split; discriminate|]. split; [left; reflexivity|]. split.
  - repeat constructor; simpl; intuition congruence.
  - intros i m. right. split; [discriminate|]. left. auto.
Qed.
Lemma exp_leaves_interval : exists lib (start : options Rnum) opt k (s e x : R), real_lib lib /\ holds start opt s /\ has_defaults start /\ ends_at start k opt e /\
  ok_iternow k = Some 7%Z /\ ok_itermax k = Some 8%Z /\ e < s /\ oh_exp_decay lib start opt k = Ok x /\ x < e /\ ~ between s e x.
Proof.
  set (lib := mkOhLib (N := Rnum) exp (fun x n => if Req_bool x 0 then 0 else Rpower x n) (fun _ => 0)).
  assert (RL : real_lib lib).
  { split; [reflexivity|]. split; cbn; intros x n; [intros H; rewrite Req_bool_false by lra; reflexivity|]. rewrite Req_bool_true; auto. }
  destruct w_start_facts as (F1 & F2 & _ & F3).
  set (x := (9 / 10 - 4 / 10 - 2 / 10) * exp (1 / (1 + 7 * IZR 7 / IZR 8))).
  assert (X : x < 4 / 10).
  { unfold x. replace (9 / 10 - 4 / 10 - 2 / 10) with (3 / 10) by field. set (t := 1 / (1 + 7 * IZR 7 / IZR 8)).
    assert (T : t = 8 / 57) by (unfold t; field). rewrite T. pose proof (exp_ineq1_le (- (8 / 57))) as B.
    pose proof (exp_pos (8 / 57)). assert (Q : exp (8 / 57) * exp (- (8 / 57)) = 1) by (rewrite <- exp_plus, Rplus_opp_r; apply exp_0). nra. }
  exists lib, w_start, "w", (w_kw 7 8), (9 / 10), (4 / 10), x. repeat (split; [first [assumption | apply F3 | reflexivity | lra]|]). split; [|split; auto].
  - apply (exp_value lib w_start "w" (w_kw 7 8) (9 / 10) (4 / 10) (2 / 10) 7 7 8 RL F2 F1 (F3 7%Z 8%Z)); auto; try (right; split; reflexivity); try lra; try lia.
  - unfold between, Rmin. destruct (Rle_dec (9 / 10) (4 / 10)); lra.
Qed.

(** *** random: with an end value the result lies between start and end *)
Lemma random_real : forall (lib : oh_lib Rnum) (start : options Rnum) opt k (s e : R) eo, holds start opt s -> ok_end k = Some eo -> dget eo opt = Some (e : Rnum) ->
  0 <= l_rand lib opt < 1 -> exists x : R, oh_random lib start opt k = Ok x /\ between s e x.
Proof.
  intros lib start opt k s e eo S E X U. exists (s + (e - s) * l_rand lib opt). split.
  - assert (V : new_value lib start k opt "random" (@nadd Rnum s (@nmul Rnum (@nsub Rnum e s) (l_rand lib opt)))) by (eapply NV_random_end; eauto).
    apply oh_one_complete in V. exact V.
  - unfold between, Rmin, Rmax. set (u := l_rand lib opt : R) in *. clearbody u. cbn in U. destruct (Rle_dec s e); nra.
Qed.
