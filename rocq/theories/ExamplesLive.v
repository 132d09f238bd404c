(** Cases that meet the hypotheses of C86. *)
From Coq Require Import String ZArith List Arith Bool Lia.
From Verif Require Import Prelude F64 Num Np Handlers Swarms Operators Generators Topology Optimizers LiveOptions Spec SpecLive LiveFacts ListFacts RunFacts HandlerFacts Demo ExamplesMotion ExamplesOpts.
Import ListNotations.
Local Open Scope string_scope.
Local Open Scope list_scope.
Local Open Scope nat_scope.

Lemma new_options : forall c top dr o, construct c top dr = Ok o -> s_options (o_swarm o) = c_options c.
Proof.
  intros c top dr o C. unfold construct in C. apply bind_Ok in C. destruct C as (_ & _ & C). destruct (Nat.eqb _ _); [discriminate|]. apply bind_Ok in C. destruct C as (s & M & C). injection C as <-. cbn [o_swarm].
  unfold make_swarm, create_swarm in M. destruct (c_kind c); apply bind_Ok in M; destruct M as (p & _ & M); apply bind_Ok in M; destruct M as (v & _ & M); injection M as <-; reflexivity.
Qed.
Lemma live_new : forall c top dr o, construct c top dr = Ok o -> coherent c (mkL o (c_options c) true).
Proof. intros c top dr o C. split; [intros _; exact (new_options c top dr o C)|reflexivity]. Qed.

Definition lv_run (c : config) (top : topology) (dr : create_draws) (e : env) (wr : writer) (iters : nat) : res (lstate * (f64 * frow)) :=
  do o <- construct c top dr; match optimize_live c e wr None iters (mkL o (c_options c) true) with (s', Ok v) => Ok (s', v) | (_, Err x) => Err x end.
Lemma lv_ok : forall c top dr e wr iters, is_ok (lv_run c top dr e wr iters) = true -> exists o s' v, construct c top dr = Ok o /\ optimize_live c e wr None iters (mkL o (c_options c) true) = (s', Ok v).
Proof.
  unfold lv_run. intros c top dr e wr iters H. destruct (construct c top dr) as [o|x]; [|discriminate]. cbn [bind] in H. destruct (optimize_live c e wr None iters _) as [s' [v|x]] eqn:E; [|discriminate]. exists o, s', v. auto.
Qed.
(** The objective sets w to 1/2 from its second call on, and removes k and p. *)
Definition lv_wr (keep : bool) : writer := fun i _ u =>
  (if Nat.eqb i 0 then filter (fun kv => if keep then true else negb (String.eqb (fst kv) "k" || String.eqb (fst kv) "p")) u else dset u "w" (dec 5 10)).
Lemma lv_local : is_ok (lv_run (d_config LocalBest 3 2 None None "periodic" "unmodified") (topo Ring false) (d_cd 0 3 2) run_e (lv_wr false) 4) = true. Proof. vm_compute. reflexivity. Qed.
Lemma lv_general : is_ok (lv_run (d_config General 3 2 None None "periodic" "unmodified") (topo Ring false) (d_cd 0 3 2) run_e (lv_wr true) 4) = true. Proof. vm_compute. reflexivity. Qed.
Lemma lv_general_err : is_ok (lv_run (d_config General 3 2 None None "periodic" "unmodified") (topo Ring false) (d_cd 0 3 2) run_e (lv_wr false) 4) = false. Proof. vm_compute. reflexivity. Qed.
Lemma filter_get : forall (f : string * pyval F64num -> bool) k u, (forall v, f (k, v) = true) -> dget (filter f u) k = dget u k.
Proof.
  intros f k u H. induction u as [|[k' v] u IH]; [reflexivity|]. cbn [filter dget]. destruct (String.eqb k k') eqn:E.
  - apply String.eqb_eq in E. subst k'. rewrite H. cbn [dget]. rewrite String.eqb_refl. reflexivity.
  - destruct (f (k', v)); [cbn [dget]; rewrite E|]; exact IH.
Qed.
Lemma set_get : forall u u' k k' (v : pyval F64num), dget u' k = dget u k -> dget (dset u' k' v) k = dget (dset u k' v) k.
Proof.
  assert (G : forall (u : options F64num) k k' v, dget (dset u k' v) k = if String.eqb k k' then Some v else dget u k).
  { induction u as [|[a b] u IH]; intros k k' v; cbn [dset dget]; [destruct (String.eqb k k'); reflexivity|]. destruct (String.eqb k' a) eqn:E; cbn [dget].
    - apply String.eqb_eq in E. subst a. destruct (String.eqb k k'); reflexivity.
    - destruct (String.eqb k a) eqn:E2; [|apply IH]. apply String.eqb_eq in E2. subst a. destruct (String.eqb k k') eqn:E3; [|reflexivity]. apply String.eqb_eq in E3. subst k'. rewrite String.eqb_refl in E. discriminate. }
  intros u u' k k' v H. rewrite !G, H. reflexivity.
Qed.
Lemma lv_wr_same : forall i x u u', same_at coefficients u u' -> same_at coefficients (lv_wr true i x u) (lv_wr false i x u').
Proof.
  intros i x u u' H k K. unfold lv_wr. destruct (Nat.eqb i 0).
  - rewrite (filter_get _ k u'), (filter_get _ k u); [exact (H k K)|reflexivity|]. intros v. cbn [fst]. destruct K as [<-|[<-|[<-|[]]]]; reflexivity.
  - apply set_get. exact (H k K).
Qed.
Lemma coefficients_demo : exists c e top dr o wr wr' s' v, construct c top dr = Ok o /\ c_kind c <> General /\ c_oh c = [] /\ (forall i x u u', same_at coefficients u u' -> same_at coefficients (wr i x u) (wr' i x u')) /\
  wr <> wr' /\ optimize_live c e wr' None 4 (mkL o (c_options c) true) = (s', Ok v).
Proof.
  destruct (lv_ok _ _ _ _ _ _ lv_local) as (o & s' & v & C & E). exists (d_config LocalBest 3 2 None None "periodic" "unmodified"), run_e, (topo Ring false), (d_cd 0 3 2), o, (lv_wr true), (lv_wr false), s', v.
  split; [exact C|]. split; [discriminate|]. split; [reflexivity|]. split; [exact lv_wr_same|]. split; [|exact E]. intros H.
  assert (X : length (lv_wr true 0 [] d_options) = length (lv_wr false 0 [] d_options)) by (rewrite H; reflexivity). discriminate X.
Qed.
Lemma live_general_refuted : exists c e top dr o wr wr' s s' v x, construct c top dr = Ok o /\ c_kind c = General /\ c_oh c = [] /\ (forall i x u u', same_at coefficients u u' -> same_at coefficients (wr i x u) (wr' i x u')) /\
  optimize_live c e wr None 4 (mkL o (c_options c) true) = (s, Ok v) /\ optimize_live c e wr' None 4 (mkL o (c_options c) true) = (s', Err x).
Proof.
  destruct (lv_ok _ _ _ _ _ _ lv_general) as (o & s & v & C & E). pose proof lv_general_err as X. unfold lv_run in X. rewrite C in X. cbn [bind] in X.
  destruct (optimize_live (d_config General 3 2 None None "periodic" "unmodified") run_e (lv_wr false) None 4 (mkL o (c_options (d_config General 3 2 None None "periodic" "unmodified")) true)) as [s' [v'|x]] eqn:E'; [discriminate X|].
  exists (d_config General 3 2 None None "periodic" "unmodified"), run_e, (topo Ring false), (d_cd 0 3 2), o, (lv_wr true), (lv_wr false), s, s', v, x.
  split; [exact C|]. split; [reflexivity|]. split; [reflexivity|]. split; [exact lv_wr_same|]. split; [exact E|exact E'].
Qed.
(** The dictionary changed between the construction and the call. *)
Definition lv_u : options F64num := [("c1", dec 5 10); ("w", dec 5 10); ("c2", dec 3 10)].
Definition lv_u' : options F64num := [("p", PInt 2); ("c1", dec 5 10); ("c2", dec 3 10); ("w", dec 5 10); ("k", PInt 2); ("r", PInt 1)].
Definition lv_c : config := d_config LocalBest 3 2 None None "periodic" "unmodified".
Lemma lv_between : is_ok (d_run (with_options lv_c lv_u') (topo Ring false) (d_cd 0 3 2) run_e None 4) = true. Proof. vm_compute. reflexivity. Qed.
Definition lv_half (v : option (pyval F64num)) : bool := match v with Some v => feq (@pnum F64num v) (fdec 5 10) | None => false end.
Lemma lv_half1 : lv_half (dget lv_u "w") = true. Proof. vm_compute. reflexivity. Qed.
Lemma lv_half2 : lv_half (dget d_options "w") = false. Proof. vm_compute. reflexivity. Qed.
Lemma between_demo : exists c e s u' o' o2 v, c_kind c = LocalBest /\ c_oh c = [] /\ coherent c s /\ ~ same_at coefficients (c_options c) (l_u s) /\ same_at coefficients (l_u s) u' /\ same_at knobs (c_options c) u' /\
  but_options (l_o s) o' /\ s_options (o_swarm o') = u' /\ optimize (with_options c u') e None 4 o' = (o2, Ok v).
Proof.
  destruct (d_run_ok _ _ _ _ _ _ lv_between) as (o & o2 & [cost pos] & C & E). exists lv_c, run_e, (mkL (but o lv_u) lv_u true), lv_u', o, o2, (cost, pos).
  split; [reflexivity|]. split; [reflexivity|]. split; [split; reflexivity|]. split.
  { intros H. specialize (H "w" (or_intror (or_intror (or_introl eq_refl)))). apply (f_equal lv_half) in H. change (c_options lv_c) with d_options in H. cbn [l_u] in H. rewrite lv_half1, lv_half2 in H. discriminate H. }
  split; [intros k K; destruct K as [<-|[<-|[<-|[]]]]; reflexivity|]. split; [intros k K; destruct K as [<-|[<-|[<-|[]]]]; reflexivity|].
  split; [exists lv_u'; rewrite <- (new_options _ _ _ _ C : s_options (o_swarm o) = lv_u'); symmetry; exact (but_self o)|]. split; [exact (new_options _ _ _ _ C)|exact E].
Qed.
(** The schedule of "lin_variation", written by the objective. *)
Definition lv_opts (i : nat) : options F64num := match oh_call (e_oh run_e i) [("w", "lin_variation")] d_options (p_kw (Z.of_nat i) 4) with Ok w => w | Err _ => [] end.
Lemma lv_sched : forallb (fun i => is_ok (oh_call (e_oh run_e i) [("w", "lin_variation")] d_options (p_kw (Z.of_nat i) 4))) (seq 0 4) = true. Proof. vm_compute. reflexivity. Qed.
Lemma lv_plain : is_ok (d_run (p_config [("w", "lin_variation")]) star (d_cd 0 3 2) run_e None 4) = true. Proof. vm_compute. reflexivity. Qed.
Lemma lv_live : is_ok (lv_run (no_strategy (p_config [("w", "lin_variation")])) star (d_cd 0 3 2) run_e (fun i _ _ => lv_opts i) 4) = true. Proof. vm_compute. reflexivity. Qed.
Lemma schedule_demo : exists c e top dr o opts o2 v, construct c top dr = Ok o /\ c_oh c <> [] /\ c_kind c = GlobalBest /\ s_options (o_swarm o) = c_options c /\ schedule c e 4 opts /\ optimize c e None 4 o = (o2, Ok v).
Proof.
  destruct (d_run_ok _ _ _ _ _ _ lv_plain) as (o & o2 & [cost pos] & C & E). exists (p_config [("w", "lin_variation")]), run_e, star, (d_cd 0 3 2), o, lv_opts, o2, (cost, pos).
  split; [exact C|]. split; [discriminate|]. split; [reflexivity|]. split; [exact (new_options _ _ _ _ C)|]. split; [|exact E].
  intros i Hi. unfold lv_opts. pose proof lv_sched as S0. rewrite forallb_forall in S0. specialize (S0 i). rewrite in_seq in S0. specialize (S0 (conj (Nat.le_0_l i) Hi)). cbv beta in S0.
  cbn [c_oh p_config c_options]. unfold p_kw in *. change (Z.of_nat 4) with 4%Z. destruct (oh_call _ _ _ _) as [w|x]; [reflexivity|discriminate S0].
Qed.
Lemma written_demo : exists c e top dr o wr s' v, construct c top dr = Ok o /\ optimize_live c e wr None 4 (mkL o (c_options c) true) = (s', Ok v) /\ exists u, wr 1 [] u <> u.
Proof.
  destruct (lv_ok _ _ _ _ _ _ lv_local) as (o & s' & v & C & E). exists (d_config LocalBest 3 2 None None "periodic" "unmodified"), run_e, (topo Ring false), (d_cd 0 3 2), o, (lv_wr false), s', v.
  split; [exact C|]. split; [exact E|]. exists []. discriminate.
Qed.
Lemma alias_demo : exists c e top dr o wr s' v, construct c top dr = Ok o /\ c_kind c = LocalBest /\ c_oh c = [] /\ coherent c (mkL o (c_options c) true) /\ optimize_live c e wr None 4 (mkL o (c_options c) true) = (s', Ok v) /\ exists u, wr 1 [] u <> u.
Proof.
  destruct (lv_ok _ _ _ _ _ _ lv_local) as (o & s' & v & C & E). exists (d_config LocalBest 3 2 None None "periodic" "unmodified"), run_e, (topo Ring false), (d_cd 0 3 2), o, (lv_wr false), s', v.
  split; [exact C|]. split; [reflexivity|]. split; [reflexivity|]. split; [exact (live_new _ _ _ _ C)|]. split; [exact E|]. exists []. discriminate.
Qed.
