(** Concrete cases for the objective functions, the cost decorator and the plotters. *)
From Coq Require Import String ZArith List Arith Bool Reals Permutation Lia Lra.
From Flocq Require Import Core IEEE754.BinarySingleNaN.
From Verif Require Import Prelude F64 F64Facts Num Np Handlers Swarms Operators Generators Topology Optimizers
  Spec SpecRun Objectives SpecObj ObjFacts ObjReal ObjFloat Tools ToolFacts Demo ExamplesSearch.
Import ListNotations.
Local Open Scope string_scope.
Local Open Scope list_scope.
Local Open Scope nat_scope.

(** Any float library will do for the domain checks. *)
Definition x_ml : mathlib F64num :=
  mkMl (N := F64num) (fdec 31415926 10000000) (fun x => x) (fun x => x) (fun x => x) (fun x => x) (fun x _ => x)
       (fun l => fold_left fadd l fzero).
Definition x_in : fmatrix := [[F 3; fdec 5 10]; [F (-4); F 1]; [F 0; F 0]].
Definition x_out : fmatrix := [[F 3; fdec 5 10]; [F (-4); F 5]; [F 0; F 0]].
Definition x_nan : fmatrix := [[F 3; fnan]].
Lemma x_bundled : In ("beale", beale x_ml) (bundled x_ml). Proof. right. left. reflexivity. Qed.
Lemma x_in_ok : is_ok (beale x_ml 2 x_in) = true. Proof. vm_compute. reflexivity. Qed.
Lemma x_in_inside : ~ outside (N := F64num) "beale" x_in.
Proof.
  intros (i & r & j & x & lo & hi & R & X & D & O).
  assert (Q : forallb (fun r => forallb (fun x => fle (fdec (-45) 10) x && fle x (fdec 45 10)) r) x_in = true) by (vm_compute; reflexivity).
  rewrite forallb_forall in Q. specialize (Q r (nth_error_In _ _ R)). rewrite forallb_forall in Q. specialize (Q x (nth_error_In _ _ X)).
  apply andb_prop in Q. destruct Q as [Q1 Q2]. injection D as <- <-.
  destruct O as [O|O]; unfold literal in O; cbn [fst snd Z.eqb] in O.
  - pose proof (eq_trans (eq_sym O) Q1) as Q. discriminate Q.
  - pose proof (eq_trans (eq_sym O) Q2) as Q. discriminate Q.
Qed.
Lemma x_out_outside : outside (N := F64num) "beale" x_out.
Proof. exists 1, [F (-4); F 5], 1, (F 5), (-45, 10)%Z, (45, 10)%Z. repeat split. right. vm_compute. reflexivity. Qed.
Lemma x_nan_outside : outside (N := F64num) "beale" x_nan.
Proof. exists 0, [F 3; fnan], 1, fnan, (-45, 10)%Z, (45, 10)%Z. repeat split. left. vm_compute. reflexivity. Qed.

(** A real point and its cost. *)
Lemma x_threehump : forall m : mathlib Rnum, real_math m -> In ("threehump", threehump m) (bundled m) /\ documented "threehump" 2 [0%R; 0%R] 0%R.
Proof. intros m _. split; [unfold bundled; cbn [In]; tauto|constructor]. Qed.

(** Cost functions of one particle. *)
Definition x_cost (r : list f64) : res cval := Ok (Scalar (sq r)).
Definition x_arr (r : list f64) : res cval := Ok (Arr r).
Definition x_raise (r : list f64) : res cval := if fle (F 3) (nth 0 r fzero) then Err ValueError else Ok (Scalar (sq r)).
Lemma x_cost_ok : match cost_dec x_cost x_in with Ok [a; b; c] => feq a (fdec 925 100) && feq b (F 17) && feq c (F 0) | _ => false end = true.
Proof. vm_compute. reflexivity. Qed.
Lemma x_cost_scalar : forall r a, x_cost r <> Ok (Arr a). Proof. intros r a H. unfold x_cost in H. injection H as H. discriminate H. Qed.

(** A 2 x 3 mesh, and a history of two iterations. *)
Definition x_sphere : fmatrix -> res (list f64) := mapM (fun r => Ok (sq r)).
Definition x_diff : fmatrix -> res (list f64) := mapM (fun r => Ok (fsub (nth 0 r fzero) (nth 1 r fzero))).
Definition feqs (a b : fmatrix) : bool :=
  Nat.eqb (length a) (length b) && forallb (fun p => Nat.eqb (length (fst p)) (length (snd p)) && forallb (fun q => feq (fst q) (snd q)) (combine (fst p) (snd p))) (combine a b).
Lemma x_mesh : match mesh x_diff (F 1) (F 0, F 3) (F 10, F 12) (Some 4) with
  | Ok (xx, yy, zz) => feqs xx [[F 0; F 1; F 2]; [F 0; F 1; F 2]] && feqs yy [[F 10; F 10; F 10]; [F 11; F 11; F 11]] &&
                       feqs zz [[F (-10); F (-9); F (-8)]; [F (-11); F (-10); F (-9)]]
  | Err _ => false end = true.
Proof. vm_compute. reflexivity. Qed.
Lemma x_arange : match np_arange (F (-1)) (F 1) (fdec 1 10) with Ok l => Nat.eqb (length l) 20 | Err _ => false end = true.
Proof. vm_compute. reflexivity. Qed.
Definition x_hist : list fmatrix := [[[F 1; F 2]; [F 3; F 4]]; [[F 0; F 1]; [F 2; F 2]]].
Lemma x_history : match compute_history_3d x_sphere x_hist (Some 2) with
  | Ok [a; b] => feqs a [[F 1; F 2; F 5]; [F 3; F 4; F 25]] && feqs b [[F 0; F 1; F 1]; [F 2; F 2; F 8]] | _ => false end = true.
Proof. vm_compute. reflexivity. Qed.

(** A library with the required values and ranges. *)
Definition f_pi : f64 := fofZe 884279719003555 (-48).
Fixpoint f_tree (k : nat) : sumtree := match k with O => Leaf 0 | S k => Node (f_tree k) (Leaf (S k)) end.
Definition f_sum (l : list f64) : f64 := match l with [] => fzero | _ :: r => tree_sum (f_tree (length r)) l end.
Definition f_sin (x : f64) : f64 := if feq x f_pi then sinpi64 else if feq x fzero then fzero else fone.
Definition f_cos (x : f64) : f64 := if feq x f_pi then fofZ (-1) else if feq x fzero then fone else fzero.
Definition f_exp (x : f64) : f64 := if feq x fzero then fone else if feq x fone then e64 else if flt fzero x then finf else fhalf.
Definition f_pow (x y : f64) : f64 := if feq x fzero then fzero else fdec 1 8.
Definition f_ml : mathlib F64num := mkMl (N := F64num) f_pi f_sin f_cos f_exp fabs f_pow f_sum.
Lemma f_leaves : forall k, leaves (f_tree k) = seq 0 (S k).
Proof. induction k as [|k IH]; [reflexivity|]. cbn [f_tree leaves]. rewrite IH. rewrite (seq_S (S k)). reflexivity. Qed.
Lemma f_sums : forall l : list F64num, l <> [] -> exists t, proper_sum t (length l) /\ m_sum f_ml l = tree_sum t l.
Proof. intros [|x l] H; [destruct (H eq_refl)|]. exists (f_tree (length l)). split; [|reflexivity]. unfold proper_sum. rewrite f_leaves. apply Permutation_refl. Qed.
Lemma f_pi_pi : feq f_pi f_pi = true. Proof. vm_compute. reflexivity. Qed.
Lemma f_pi_0 : feq fzero f_pi = false. Proof. vm_compute. reflexivity. Qed.
Lemma f_one_0 : feq fone fzero = false. Proof. vm_compute. reflexivity. Qed.
Lemma f_one_1 : feq fone fone = true. Proof. vm_compute. reflexivity. Qed.
Lemma f_half_0 : feq (fdec 1 2) fzero = false. Proof. vm_compute. reflexivity. Qed.
Lemma f_values : libm_values f_ml.
Proof.
  unfold libm_values. cbn [m_pi m_sin m_cos m_exp m_sqrt m_pow f_ml].
  split; [reflexivity|]. split; [unfold f_sin; rewrite f_pi_0; reflexivity|]. split; [unfold f_cos; rewrite f_pi_0; reflexivity|].
  split; [unfold f_cos; rewrite f_pi_pi; reflexivity|]. split; [intros x E; unfold f_exp; rewrite E; reflexivity|].
  split; [reflexivity|]. split; [reflexivity|]. split; [reflexivity|]. split; [unfold f_pow; rewrite f_half_0; reflexivity|].
  split; [reflexivity|]. exact f_sums.
Qed.
Lemma f_const_range : forall x, In x [sinpi64; fzero; fone; fofZ (-1)] -> not_below (fofZ (-1)) x /\ not_above fone x.
Proof. intros x [<-|[<-|[<-|[<-|[]]]]]; split; unfold not_below, not_above; vm_compute; reflexivity. Qed.
Lemma f_range : libm_range f_ml.
Proof.
  unfold libm_range. cbn [m_pi m_sin m_cos m_exp m_sqrt m_pow f_ml].
  split; [intros x; apply f_const_range; unfold f_sin; destruct (feq x f_pi); [left; reflexivity|]; destruct (feq x fzero); [right; left|right; right; left]; reflexivity|].
  split; [intros x; apply f_const_range; unfold f_cos; destruct (feq x f_pi); [right; right; right; left; reflexivity|]; destruct (feq x fzero); [right; right; left|right; left]; reflexivity|].
  split; [intros x; unfold f_exp, not_below; destruct (feq x fzero); [vm_compute; reflexivity|]; destruct (feq x fone); [vm_compute; reflexivity|]; destruct (flt fzero x); vm_compute; reflexivity|].
  split; [|split; [exact below_abs|split; [reflexivity|exact f_sums]]].
  intros x N. unfold f_exp, not_above in *. destruct (feq x fzero); [vm_compute; reflexivity|]. destruct (feq x fone) eqn:E.
  - exfalso. assert (Q : flt fzero x = true); [|pose proof (eq_trans (eq_sym Q) N) as W; discriminate W].
    apply feq_spec in E. destruct E as (A & B & K). apply flt_spec. repeat split; auto. rewrite K, (fkey_finite fone eq_refl), fone_R. cbn. lra.
  - rewrite N. vm_compute. reflexivity.
Qed.
Lemma f_exp1 : m_exp f_ml fone = e64. Proof. cbn [m_exp f_ml]. unfold f_exp. rewrite f_one_0, f_one_1. reflexivity. Qed.
Lemma f_sinpi : m_sin f_ml (m_pi f_ml) = sinpi64. Proof. cbn [m_sin m_pi f_ml]. unfold f_sin. rewrite f_pi_pi. reflexivity. Qed.
Lemma f_runs : is_ok (rastrigin f_ml 2 [[F 1; fdec 5 10]; [F 0; F (-3)]]) = true /\ is_ok (easom f_ml 2 [[F 3; F 3]]) = true.
Proof. split; vm_compute; reflexivity. Qed.
