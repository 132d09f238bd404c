(** The recorded positions and velocities of a call, linked step by step. *)
From Coq Require Import String ZArith List Arith Bool Lia.
From Verif Require Import Prelude ListFacts F64 F64Facts Num Np NpFacts Handlers Swarms Operators
  Generators Topology Optimizers Spec SpecDyn RunFacts PbestFacts ShapeFacts GbestFacts RunBest RunMain RunInv.
Import ListNotations.
Local Open Scope nat_scope.

Lemma prefix_refl : forall A (l : list A), prefix l l. Proof. intros A l. exists []. rewrite app_nil_r. reflexivity. Qed.
Lemma prefix_app : forall A (l m k : list A), prefix l m -> prefix l (m ++ k).
Proof. intros A l m k (q & ->). exists (q ++ k). rewrite app_assoc. reflexivity. Qed.

(** One completed update of iteration [t], from the recorded (position, velocity) [a] to the
    next one [b]; [hp], [C] are what has been evaluated so far. *)
Definition Moves (c : config) (e : env) (pool : option nat) (iters : nat) (o : ostate) (hp : list fmatrix) (C : list (list f64))
    (t : nat) (a b : fmatrix * fmatrix) : Prop :=
  exists o1 o2 opts vm bm h Ch B, Run c e pool o (S t) o1 h Ch B /\ prefix h hp /\ prefix Ch C /\
    s_position (o_swarm o1) = fst a /\ s_velocity (o_swarm o1) = snd a /\
    (t < iters /\ (c_kind c = Binary -> s_options (o_swarm o1) = s_options (o_swarm o))) /\
    Updated c e iters t o1 o2 opts (snd b) vm (fst b) bm.
Lemma Moves_app : forall c e pool iters o hp C t a b k k', Moves c e pool iters o hp C t a b ->
  Moves c e pool iters o (hp ++ k) (C ++ k') t a b.
Proof.
  intros c e pool iters o hp C t a b k k' (o1 & o2 & opts & vm & bm & h & Ch & B & R & P & Q & H).
  exists o1, o2, opts, vm, bm, h, Ch, B. split; auto. split; [apply prefix_app; auto|]. split; [apply prefix_app; auto|]. exact H.
Qed.

Definition here (o : ostate) : fmatrix * fmatrix := (s_position (o_swarm o), s_velocity (o_swarm o)).

Record Trace (c : config) (e : env) (pool : option nat) (iters : nat) (o : ostate) (k : nat) (o1 : ostate)
    (tr : list (fmatrix * fmatrix)) (C : list (list f64)) : Prop := {
  tc_run : exists B, Run c e pool o k o1 (map fst tr) C B;
  tc_vel : o_velocity_history o1 = o_velocity_history o ++ map snd tr;
  tc_first : forall a, nth_error tr 0 = Some a -> a = here o;
  tc_steps : forall t a b, nth_error tr t = Some a -> nth_error tr (S t) = Some b ->
             Moves c e pool iters o (map fst tr) C t a b;
  tc_opts : c_kind c = Binary -> s_options (o_swarm o1) = s_options (o_swarm o)
}.
Lemma trace_length : forall c e pool iters o k o1 tr C, Trace c e pool iters o k o1 tr C -> length tr = k.
Proof. intros c e pool iters o k o1 tr C [(B & R) _ _ _ _]. destruct (ru_p _ _ _ _ _ _ _ _ _ R). rewrite map_length in pi_len. exact pi_len. Qed.
(** The current position and velocity follow the trace. *)
Definition Follows c e pool iters o k o1 (tr : list (fmatrix * fmatrix)) C : Prop :=
  (k = 0 -> here o1 = here o) /\
  (forall t a, k = S t -> nth_error tr t = Some a -> Moves c e pool iters o (map fst tr) C t a (here o1)).

Lemma trace_eval : forall c e pool iters o k o1 tr C o3 cost pp pc t bp bc np, pool <> Some 0 ->
  Trace c e pool iters o k o1 tr C -> Follows c e pool iters o k o1 tr C ->
  Evald c e pool k o1 o3 cost pp pc t bp bc np ->
  Trace c e pool iters o (S k) o3 (tr ++ [here o1]) (C ++ [cost]) /\ here o3 = here o1.
Proof.
  intros c e pool iters o k o1 tr C o3 cost pp pc t bp bc np NP T [F1 F2] E.
  pose proof (trace_length _ _ _ _ _ _ _ _ _ T) as L.
  destruct T as [(B & R) V Fi St Op]. destruct (motion_eval _ _ _ _ _ _ _ _ _ _ _ _ _ E) as (Mo & Ph & Vh). split.
  - constructor.
    + exists (B ++ [bc]). rewrite map_app. eapply Run_eval; eauto.
    + rewrite Vh, V, map_app, app_assoc. reflexivity.
    + intros a A. destruct tr as [|x tr]; cbn in A; [|apply Fi; exact A]. injection A as <-. apply F1. cbn in L. lia.
    + intros u a b A D. rewrite map_app. apply Moves_app. destruct (Nat.eq_dec (S u) k) as [Q|Q].
      * assert (Ea : nth_error tr u = Some a). { rewrite nth_error_app1 in A; auto. lia. }
        rewrite nth_error_app2 in D by lia. replace (S u - length tr) with 0 in D by lia. injection D as <-. apply F2; auto.
      * assert (S u < length (tr ++ [here o1])) by (apply nth_error_lt in D; exact D). rewrite app_length in H. cbn [length] in H.
        rewrite nth_error_app1 in A by lia. rewrite nth_error_app1 in D by lia. apply St; auto.
    + intros K. destruct E as (_ & _ & _ & ->). exact (Op K).
  - unfold motion_of in Mo. unfold here. congruence.
Qed.
Lemma trace_core : forall c e pool iters o k o1 o2 tr C, Trace c e pool iters o k o1 tr C -> core_eq o1 o2 ->
  length (s_position (o_swarm o2)) = length (s_position (o_swarm o1)) ->
  (c_kind c = Binary -> s_options (o_swarm o2) = s_options (o_swarm o1)) -> Trace c e pool iters o k o2 tr C.
Proof.
  intros c e pool iters o k o1 o2 tr C [(B & R) V F S O] E L OO. constructor; auto.
  - exists B. eapply Run_core; eauto.
  - rewrite (ce_vh _ _ E). exact V.
  - intros K. rewrite (OO K). exact (O K).
Qed.


Definition Hist (c : config) (e : env) (pool : option nat) (iters : nat) (o : ostate) (k : nat) (o1 : ostate)
    (tr : list (fmatrix * fmatrix)) (C : list (list f64)) : Prop :=
  k <= iters /\ length tr = k /\ o_pos_history o1 = o_pos_history o ++ map fst tr /\
  o_velocity_history o1 = o_velocity_history o ++ map snd tr /\ logged e pool (map fst tr) C /\
  (forall a, nth_error tr 0 = Some a -> a = here o) /\
  (forall t a b, nth_error tr t = Some a -> nth_error tr (S t) = Some b -> Moves c e pool iters o (map fst tr) C t a b).
Lemma trace_hist : forall c e pool iters o k o1 tr C, k <= iters -> Trace c e pool iters o k o1 tr C -> Hist c e pool iters o k o1 tr C.
Proof.
  intros c e pool iters o k o1 tr C K T. pose proof (trace_length _ _ _ _ _ _ _ _ _ T) as L. destruct T as [(B & R) V F S _].
  destruct (ru_p _ _ _ _ _ _ _ _ _ R). unfold Hist. auto 10.
Qed.
Lemma hist_same : forall c e pool iters o k o1 o2 tr C, Hist c e pool iters o k o1 tr C ->
  o_pos_history o2 = o_pos_history o1 -> o_velocity_history o2 = o_velocity_history o1 -> Hist c e pool iters o k o2 tr C.
Proof. intros c e pool iters o k o1 o2 tr C H P V. unfold Hist in *. rewrite P, V. exact H. Qed.

(** Every call that gets past its process pool has a trace; when it raises, the trace covers the
    recorded iterations. *)
Lemma optimize_trace : forall c e pool iters o o' r, pool <> Some 0 -> optimize c e pool iters o = (o', r) ->
  exists k tr C, Hist c e pool iters o k o' tr C /\
    (forall x, r = Ok x -> (k = 0 -> here o' = here o) /\ forall t a, k = S t -> nth_error tr t = Some a ->
       Moves c e pool iters o (map fst tr) C t a (here o') \/ here o' = a).
Proof.
  intros c e pool iters o o' r NP E.
  destruct (optimize_rule c e pool iters o
    (fun i o1 _ => exists tr C, Trace c e pool iters o i o1 tr C /\ Follows c e pool iters o i o1 tr C)
    (fun i o1 _ => exists tr C, Trace c e pool iters o (S i) o1 tr C /\ nth_error tr i = Some (here o1))
    (fun o1 => exists k tr C, k <= iters /\ Trace c e pool iters o k o1 tr C /\
       (Follows c e pool iters o k o1 tr C \/ exists t, k = S t /\ nth_error tr t = Some (here o1)))
    (fun o1 _ => exists k tr C, Hist c e pool iters o k o1 tr C)) with (o' := o') (r := r)
    as [(P & _)|[(P & (k & tr & C & K & T & Q) & ->)|(P & x & (k & tr & C & Q) & ->)]]; auto; [| | | |congruence| |].
  - destruct (started_facts c o) as (_ & _ & _ & _ & E5 & E6 & E7 & _). exists [], []. split.
    + constructor.
      * exists []. apply Run_start.
      * rewrite E6, app_nil_r. reflexivity.
      * discriminate.
      * intros [|t]; discriminate.
      * intros _. rewrite E7. reflexivity.
    + split; [|discriminate]. unfold here. rewrite E7. reflexivity.
  - intros i o1 q Hi (tr & C & T & F). pose proof (evaluate_cases c e pool i o1 q) as EC.
    pose proof (trace_length _ _ _ _ _ _ _ _ _ T) as L.
    destruct (evaluate_swarm c e pool i o1 q) as [o2 q2|o2|o2 x].
    + destruct EC as (cost & pp & pc & t & bp & bc & np & EV & _).
      destruct (trace_eval _ _ _ _ _ _ _ _ _ _ _ _ _ _ _ _ _ NP T F EV) as [T' H]. do 2 eexists. split; [exact T'|].
      rewrite nth_error_app2, L, Nat.sub_diag, H by lia. reflexivity.
    + destruct EC as (cost & pp & pc & t & bp & bc & np & EV & _).
      destruct (trace_eval _ _ _ _ _ _ _ _ _ _ _ _ _ _ _ _ _ NP T F EV) as [T' H]. exists (S i). do 2 eexists. split; [lia|]. split; [exact T'|].
      right. exists i. split; auto. rewrite nth_error_app2, L, Nat.sub_diag, H by lia. reflexivity.
    + exists i, tr, C. destruct (motion_raise _ _ _ _ _ _ _ EC) as (Mo & Ph & Vh).
      eapply hist_same; [|exact Ph|exact Vh]. apply trace_hist; auto. lia.
  - intros i o1 q Hi (tr & C & T & F). pose proof (update_cases c e iters i o1 q) as UC.
    destruct (update_swarm c e iters i o1 q) as [o2 q2|o2|o2 x].
    + destruct UC as (_ & CE & opts & v & vm & p & bm & U).
      pose proof (Updated_length _ _ _ _ _ _ _ _ _ _ _ U) as [L _]. apply shape_eq_length in L.
      exists tr, C. split; [eapply trace_core; eauto; [destruct U as (_ & U & _); rewrite U; symmetry; exact L|]|].
      { intros KB. destruct U as (U1 & U2 & _). rewrite KB in U1. destruct U1 as (-> & _). rewrite U2. reflexivity. }
      split; [discriminate|]. intros t a Et A. injection Et as <-. pose proof (eq_trans (eq_sym F) A) as Q. injection Q as <-.
      pose proof T as [(B & R) _ _ _ OO]. exists o1, o2, opts, vm, bm, (map fst tr), C, B.
      split; auto. split; [apply prefix_refl|]. split; [apply prefix_refl|]. split; auto. split; auto. split; [split; [lia|exact OO]|].
      pose proof U as (_ & S2 & _). unfold here. rewrite S2. exact U.
    + contradiction.
    + destruct UC as (CE & Pp). exists (S i), tr, C. eapply hist_same; [|apply CE|apply CE]. apply trace_hist; auto.
  - intros o1 q (tr & C & T & F). exists iters, tr, C. auto.
  - exists k, tr, C. split; [apply trace_hist; auto|]. intros x _. destruct Q as [[F1 F2]|(t & -> & A)].
    + split; [exact F1|]. intros t a -> A. left. apply F2; auto.
    + split; [discriminate|]. intros t' a Q B. injection Q as <-. right. congruence.
  - exists k, tr, C. split; auto. discriminate.
Qed.
