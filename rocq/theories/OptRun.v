(** The options handler inside [optimize], and the binary64 range of [random]. *)
From Coq Require Import String ZArith List Arith Bool Reals Lra Lia.
From Flocq Require Import Core IEEE754.BinarySingleNaN.
From Verif Require Import Prelude ListFacts F64 F64Facts F64More Num Np Handlers Swarms Operators Generators Topology Optimizers
  Spec RunFacts SpecHandlers SpecOpts OptFacts.
Import ListNotations.
Local Open Scope string_scope.
Local Open Scope list_scope.
#[local] Opaque fone fzero.

(** Negating both ends negates the draw. *)
Lemma rnd_opp : forall x, rnd (- x) = (- rnd x)%R.
Proof. intros x. unfold rnd. apply round_NE_opp. Qed.
Lemma draw_down : forall l h u, ffinite l = true -> ffinite h = true -> fle h l = true -> ffinite (fsub h l) = true ->
  ffinite u = true -> (0 <= FR u < 1)%R ->
  fle h (fadd l (fmul (fsub h l) u)) = true /\ fle (fadd l (fmul (fsub h l) u)) l = true.
Proof.
  intros l h u Fl Fh L Fd Fu U.
  pose proof (fsub_round h l Fh Fl) as RD. pose proof (is_round_finite_eq _ _ RD Fd) as ED.
  pose proof (fsub_round l h Fl Fh) as RD'.
  assert (NR : rnd (FR l - FR h) = (- rnd (FR h - FR l))%R) by (rewrite <- rnd_opp; f_equal; ring).
  assert (Fd' : ffinite (fsub l h) = true).
  { apply RD'. rewrite NR, Rabs_Ropp, <- ED. apply Rabs_def1; apply FR_bound. }
  pose proof (is_round_finite_eq _ _ RD' Fd') as ED'. destruct (draw_width h l u) as (FM & A & B); auto.
  pose proof (fmul_round (fsub l h) u Fd' Fu) as RM. pose proof (is_round_finite_eq _ _ RM FM) as EM.
  pose proof (fmul_round (fsub h l) u Fd Fu) as RM'.
  assert (NM : rnd (FR (fsub h l) * FR u) = (- FR (fmul (fsub l h) u))%R).
  { rewrite EM, <- rnd_opp. f_equal. rewrite ED, ED', NR. ring. }
  assert (FM' : ffinite (fmul (fsub h l) u) = true). { apply RM'. rewrite NM, Rabs_Ropp. apply Rabs_def1; apply FR_bound. }
  pose proof (is_round_finite_eq _ _ RM' FM') as EM'. rewrite NM in EM'.
  pose proof (fadd_round _ _ Fl FM') as R. split.
  - apply (is_round_le_l _ _ _ R Fh). lra.
  - apply (is_round_le_r _ _ _ R Fl). lra.
Qed.
(** C41 at binary64 *)
Lemma random_float : forall (lib : oh_lib F64num) (start : options F64num) opt k (s e : f64) eo,
  holds start opt s -> ok_end k = Some eo -> dget eo opt = Some (e : F64num) ->
  fle fzero (l_rand lib opt) = true -> flt (l_rand lib opt) fone = true ->
  ffinite s = true -> ffinite e = true -> ffinite (fsub e s) = true ->
  exists x : f64, oh_random lib start opt k = Ok x /\ ((fle s x = true /\ fle x e = true) \/ (fle e x = true /\ fle x s = true)).
Proof.
  intros lib start opt k s e eo S E X U1 U2 Fs Fe Fd. exists (fadd s (fmul (fsub e s) (l_rand lib opt))). split.
  - assert (V : new_value lib start k opt "random" (@nadd F64num s (@nmul F64num (@nsub F64num e s) (l_rand lib opt)))) by (eapply NV_random_end; eauto).
    apply oh_one_complete in V. exact V.
  - destruct (unit_draw _ U1 U2) as [Fu U]. destruct (fle s e) eqn:L.
    + left. apply draw_in_r; auto.
    + right. apply draw_down; auto. apply fle_fin; auto. destruct (Rle_or_lt (FR e) (FR s)) as [Q|Q]; auto.
      assert (W : fle s e = true) by (apply fle_fin; auto; lra). congruence.
Qed.

(** *** Inside optimize *)
Definition iter_kw (i iters : nat) : oh_kwargs F64num := mkOk (Some (Z.of_nat i)) (Some (Z.of_nat iters)) None None None None.

(** The options in force after a call are those of the start, or the handler's result for the
    original options and the number of the last completed iteration. *)
Lemma options_run : forall c e pool iters o o' r, c_kind c <> Binary -> optimize c e pool iters o = (o', r) ->
  s_options (o_swarm o') = s_options (o_swarm o) \/
  exists i, (i < iters)%nat /\ oh_call (e_oh e i) (c_oh c) (c_options c) (iter_kw i iters) = Ok (s_options (o_swarm o')).
Proof.
  intros c e pool iters o o' r K E.
  set (J := fun o1 : ostate => s_options (o_swarm o1) = s_options (o_swarm o) \/
     exists i, (i < iters)%nat /\ oh_call (e_oh e i) (c_oh c) (c_options c) (iter_kw i iters) = Ok (s_options (o_swarm o1))).
  change (J o').
  assert (JE : forall o1 o2, s_options (o_swarm o2) = s_options (o_swarm o1) -> J o1 -> J o2) by (unfold J; intros o1 o2 ->; auto).
  destruct (optimize_rule c e pool iters o (fun _ o1 _ => J o1) (fun _ o1 _ => J o1) J (fun o1 _ => J o1)) with (o' := o') (r := r)
    as [(P & -> & ->)|[(P & Q & ->)|(P & x & Q & ->)]]; auto.
  - left. destruct (started_facts c o) as (_ & _ & _ & _ & _ & _ & -> & _). reflexivity.
  - intros i o1 q Hi j. pose proof (evaluate_cases c e pool i o1 q) as EC. destruct (evaluate_swarm c e pool i o1 q) as [o2 q2|o2|o2 x].
    + destruct EC as (cost & pp & pc & t & bp & bc & np & (_ & _ & _ & ->) & _). eapply JE; [|exact j]. reflexivity.
    + destruct EC as (cost & pp & pc & t & bp & bc & np & (_ & _ & _ & ->) & _). eapply JE; [|exact j]. reflexivity.
    + eapply JE; [|exact j]. destruct EC; reflexivity.
  - intros i o1 q Hi j. unfold update_swarm.
    assert (G : forall opts, oh_call (e_oh e i) (c_oh c) (c_options c) (iter_kw i iters) = Ok opts -> forall o2, s_options (o_swarm o2) = opts -> J o2).
    { intros opts H o2 <-. right. eauto. }
    unfold iter_kw in G. destruct (c_kind c); try congruence;
      destruct (oh_call _ _ _ _) as [opts|x] in *; auto; specialize (G opts eq_refl); cbv zeta;
      (destruct (compute_velocity _ _ _ _ _ _) as [[v vm]|x]; [|apply G; reflexivity]);
      (destruct (compute_position _ _ _ _ _) as [[p bm]|x]; apply G; reflexivity).
  - left. unfold start_memory. destruct (c_kind c); reflexivity.
Qed.
(** C38 for a run *)
Lemma options_not_compounded : forall c e pool iters o o' r, c_kind c <> Binary -> NoDup (dkeys (c_options c)) ->
  optimize c e pool iters o = (o', r) ->
  s_options (o_swarm o') = s_options (o_swarm o) \/
  exists i, (i < iters)%nat /\ dkeys (s_options (o_swarm o')) = dkeys (c_options c) /\
    (forall opt, dget (c_oh c) opt = None -> dget (s_options (o_swarm o')) opt = dget (c_options c) opt) /\
    (forall opt s, In opt (dkeys (c_options c)) -> dget (c_oh c) opt = Some s ->
       exists x, dget (s_options (o_swarm o')) opt = Some (PFloat x) /\ new_value (e_oh e i) (c_options c) (iter_kw i iters) opt s x).
Proof.
  intros c e pool iters o o' r K ND E. destruct (options_run c e pool iters o o' r K E) as [H|(i & Hi & H)]; auto.
  right. exists i. split; auto. exact (options_varied _ _ _ _ _ ND H).
Qed.

Lemma first_den : forall m : f64, @neq F64num (fadd fone (fdiv (fmul (fofZ 7) (fofZ 0)) m)) (fofZ 0) = false.
Proof.
  assert (Z : forall b, @neq F64num (fadd fone (B754_zero b)) (fofZ 0) = false) by (intros []; vm_compute; reflexivity).
  assert (E : exists b, fmul (fofZ 7) (fofZ 0) = B754_zero b) by (exists false; vm_compute; reflexivity).
  destruct E as (b & ->). intros [s|s| |s m ex H]; try (vm_compute; reflexivity); exact (Z (xorb b s)).
Qed.
(** C41: an optimizer whose strategies send one of its options to 'random' never gets past its
    first iteration. *)
Lemma random_never_runs : forall c e pool iters o o' r opt,
  c_kind c <> Binary -> c_ftol_iter c <> 0%nat -> (0 < iters)%nat ->
  In opt (dkeys (c_options c)) -> dget (c_oh c) opt = Some "random"%string ->
  feq (l_pow (e_oh e 0%nat) (fofZ (Z.of_nat iters)) (fdec 12 10)) fzero = false ->
  optimize c e pool iters o = (o', r) ->
  exists x, r = Err x /\
    ((o_pos_history o' = o_pos_history o) \/
     (x = KeyError /\ o_pos_history o' = o_pos_history o ++ [s_position (o_swarm o)])).
Proof.
  intros c e pool iters o o' r opt K F IT IO OH PW E.
  destruct (started_facts c o) as (_ & _ & _ & _ & E5 & _ & E7 & _).
  destruct (optimize_rule c e pool iters o
    (fun i o1 _ => i = 0%nat /\ o1 = started c o)
    (fun i o1 _ => i = 0%nat /\ o_pos_history o1 = o_pos_history o ++ [s_position (o_swarm o)])
    (fun _ => False)
    (fun o1 x => o_pos_history o1 = o_pos_history o \/
       (x = KeyError /\ o_pos_history o1 = o_pos_history o ++ [s_position (o_swarm o)]))) with (o' := o') (r := r)
    as [(P & -> & ->)|[(P & [] & _)|(P & x & Q & ->)]]; auto.
  - intros i o1 q Hi (-> & ->). pose proof (evaluate_cases c e pool 0%nat (started c o) q) as EC.
    destruct (evaluate_swarm c e pool 0%nat (started c o) q) as [o2 q2|o2|o2 x] eqn:ES.
    + destruct EC as (cost & pp & pc & t & bp & bc & np & (_ & _ & _ & ->) & _). split; auto.
      cbn [populate_history o_pos_history with_top with_swarm o_swarm s_position set_best set_pbest set_current_cost].
      rewrite E5, E7. reflexivity.
    + revert ES. unfold evaluate_swarm. cbv zeta. destruct (compute_objective_function _ _ _); [|discriminate].
      destruct (compute_pbest _) as [[pp pc]|]; [|discriminate]. destruct (compute_gbest _ _ _ _) as [t [[[bp bc] np]|]]; [|discriminate].
      assert (L : Nat.leb (c_ftol_iter c) 0 = false) by (apply Nat.leb_gt; lia). rewrite L. discriminate.
    + left. destruct EC; cbn; exact E5.
  - intros i o1 q Hi (-> & H). pose proof (update_cases c e iters 0%nat o1 q) as UC.
    assert (G : exists x, oh_call (e_oh e 0%nat) (c_oh c) (c_options c) (iter_kw 0 iters) = Err x).
    { apply (options_missing _ _ _ _ _ _ IO OH). right. left. auto. }
    destruct G as (x & G). assert (X : x = KeyError).
    { destruct (options_error _ _ _ _ _ G) as (opt' & s & I' & D & [(-> & _)|[(-> & Z)|(_ & _ & i & m & A & B & C)]]); auto; exfalso.
      - destruct Z as (i & m & A & B & [(-> & _)|[(-> & d2 & D2 & Z)|(-> & n & NN & Z)]]); cbn in A, B.
        + injection B as B. lia.
        + injection A as <-. destruct D2 as [D2|[_ ->]]; [discriminate|].
          pose proof (first_den (fofZ m)) as FD. pose proof (eq_trans (eq_sym Z) FD). discriminate.
        + destruct NN as [NN|[_ ->]]; [discriminate|]. injection B as <-. pose proof (eq_trans (eq_sym Z) PW). discriminate.
      - cbn in A, B. injection A as <-. injection B as <-. lia. }
    subst x. unfold update_swarm. unfold iter_kw in G. change (Z.of_nat 0) with 0%Z in *.
    destruct (c_kind c); try congruence; rewrite G; right; auto.
  - intros o1 q (Z & _). lia.
  - exists ValueError. split; [reflexivity|]. left. unfold start_memory. destruct (c_kind c); reflexivity.
  - eauto.
Qed.
