(** What a run reports (C71, C72) and how the reporter is configured (C73). *)
From Coq Require Import String ZArith List Arith Bool Lia.
From Verif Require Import Prelude ListFacts F64 Num Np Handlers Swarms Operators Generators Topology Optimizers Spec SpecRun RunFacts Report SpecReport.
Import ListNotations.
Local Open Scope list_scope.
Local Open Scope nat_scope.

Lemma loop_erase : forall verbose c e pool iters m i o q, snd (reported_loop verbose c e pool iters m i o q) = opt_loop c e pool iters m i o q.
Proof.
  intros verbose c e pool iters m. induction m as [|m IH]; intros i o q; [reflexivity|]. cbn [reported_loop opt_loop]. unfold iteration.
  destruct (evaluate_swarm c e pool i o q) as [o' q'|o'|o' x]; [|reflexivity|reflexivity].
  destruct (update_swarm c e iters i o' q') as [o2 q2|o2|o2 x]; [|reflexivity|reflexivity].
  rewrite <- IH. destruct (reported_loop verbose c e pool iters m (S i) o2 q2); reflexivity.
Qed.
Lemma report_erase : forall verbose c e pool iters o, snd (reported verbose c e pool iters o) = optimize c e pool iters o.
Proof.
  intros. unfold reported, optimize. destruct pool as [[|k]|]; [reflexivity| |].
  all: rewrite <- (loop_erase verbose); match goal with |- context [let (_, _) := ?t in _] => destruct t as [evs [o'|o' x]] end; cbn [snd]; [|reflexivity];
    destruct (final_result o') as [[cost pos]|x]; reflexivity.
Qed.


(** *** The progress bar *)
Definition end_state (r : loop_end) : ostate := match r with LDone o => o | LRaise o _ => o end.
Lemma postfixes_app : forall a b, postfixes (a ++ b) = postfixes a ++ postfixes b.
Proof. intros a b. unfold postfixes. rewrite map_app, concat_app. reflexivity. Qed.
Lemma evaluate_hook : forall c e pool i o q, match evaluate_swarm c e pool i o q with
  | Next o' _ | Break o' => o_cost_history o' = o_cost_history o ++ [s_best_cost (o_swarm o')]
  | Raise o' _ => o_cost_history o' = o_cost_history o end.
Proof.
  intros. unfold evaluate_swarm.
  destruct (compute_objective_function pool (e_obj e i) (s_position (o_swarm o))) as [cost|x]; [|reflexivity].
  destruct (compute_pbest (set_current_cost (o_swarm o) cost)) as [[pp pc]|x]; [|reflexivity].
  destruct (compute_gbest _ _ _ _) as [t [[[bp bc] np]|x]]; [|reflexivity]. destruct (_ && _); reflexivity.
Qed.
Lemma update_costs : forall c e iters i o q, match update_swarm c e iters i o q with
  | Next o' _ | Break o' | Raise o' _ => o_cost_history o' = o_cost_history o end.
Proof.
  intros. pose proof (update_cases c e iters i o q) as H. destruct (update_swarm c e iters i o q) as [o' q'|o'|o' x].
  - destruct H as (_ & H & _). apply H.
  - destruct H.
  - destruct H as (H & _). apply H.
Qed.
Lemma loop_bar : forall verbose c e pool iters m i o q, let (evs, r) := reported_loop verbose c e pool iters m i o q in
  exists l, o_cost_history (end_state r) = o_cost_history o ++ l /\ evs = if verbose then map Postfix l else [].
Proof.
  intros verbose c e pool iters m. induction m as [|m IH]; intros i o q; cbn [reported_loop].
  { exists []. split; [symmetry; apply app_nil_r|destruct verbose; reflexivity]. }
  pose proof (evaluate_hook c e pool i o q) as H1. destruct (evaluate_swarm c e pool i o q) as [o' q'|o'|o' x].
  - pose proof (update_costs c e iters i o' q') as H2. destruct (update_swarm c e iters i o' q') as [o2 q2|o2|o2 x].
    + specialize (IH (S i) o2 q2). destruct (reported_loop verbose c e pool iters m (S i) o2 q2) as [evs r]. destruct IH as (l & L1 & L2).
      exists (s_best_cost (o_swarm o') :: l). split.
      * rewrite L1, H2, H1, <- app_assoc. reflexivity.
      * subst evs. unfold hook. destruct verbose; reflexivity.
    + exists [s_best_cost (o_swarm o')]. cbn [end_state]. split; [rewrite H2, H1; reflexivity|unfold hook; destruct verbose; reflexivity].
    + exists [s_best_cost (o_swarm o')]. cbn [end_state]. split; [rewrite H2, H1; reflexivity|unfold hook; destruct verbose; reflexivity].
  - exists [s_best_cost (o_swarm o')]. cbn [end_state]. split; [exact H1|unfold hook; destruct verbose; reflexivity].
  - exists []. cbn [end_state]. split; [rewrite H1; symmetry; apply app_nil_r|destruct verbose; reflexivity].
Qed.
Lemma start_costs : forall c o, o_cost_history (start_pbest c (start_memory c o)) = o_cost_history o /\ o_cost_history (start_memory c o) = o_cost_history o.
Proof. intros c o. unfold start_pbest, start_memory. destruct (c_kind c); split; reflexivity. Qed.

(** The shape of a report. *)
Definition finished (r : res (f64 * frow)) (lvl : nat) (pool : option nat) : list event :=
  match r with
  | Ok (cost, pos) => Log lvl (MFinish cost pos) :: match pool with None => [] | Some _ => [PoolClose] end
  | Err _ => []
  end.
Lemma report_shape : forall verbose c e pool iters o evs o' r, reported verbose c e pool iters o = (evs, (o', r)) ->
  exists l, o_cost_history o' = o_cost_history o ++ l /\ (pool = Some 0 -> l = []) /\
    evs = [Log DEBUG MArgs; Log (log_level verbose) (MStart iters (c_options c))] ++
          match pool with None | Some O => [] | Some n => [PoolOpen n] end ++
          (if verbose then match pool with Some O => [] | _ => Bar iters :: map Postfix l end else []) ++
          finished r (log_level verbose) pool.
Proof.
  intros verbose c e pool iters o evs o' r H. unfold reported in H. destruct (start_costs c o) as [S1 S2].
  assert (Z : pool = Some 0 \/ pool <> Some 0) by (destruct pool as [[|k]|]; [left|right|right]; congruence).
  destruct Z as [->|Z].
  { injection H as <- <- <-. exists []. rewrite S2, app_nil_r. split; [reflexivity|]. split; [reflexivity|]. cbn. destruct verbose; reflexivity. }
  pose proof (loop_bar verbose c e pool iters iters 0 (start_pbest c (start_memory c o)) []) as L.
  destruct (reported_loop verbose c e pool iters iters 0 (start_pbest c (start_memory c o)) []) as [ev lr].
  destruct L as (l & L1 & L2). exists l. rewrite S1 in L1.
  assert (E : (evs, (o', r)) =
     match lr with
     | LRaise o1 x => ([Log DEBUG MArgs; Log (log_level verbose) (MStart iters (c_options c))] ++ match pool with None => [] | Some n => [PoolOpen n] end ++ (if verbose then [Bar iters] else []) ++ ev, (o1, Err x))
     | LDone o1 => match final_result o1 with
        | Err x => ([Log DEBUG MArgs; Log (log_level verbose) (MStart iters (c_options c))] ++ match pool with None => [] | Some n => [PoolOpen n] end ++ (if verbose then [Bar iters] else []) ++ ev, (o1, Err x))
        | Ok (cost, pos) => ([Log DEBUG MArgs; Log (log_level verbose) (MStart iters (c_options c))] ++ match pool with None => [] | Some n => [PoolOpen n] end ++ (if verbose then [Bar iters] else []) ++ ev ++ [Log (log_level verbose) (MFinish cost pos)] ++ match pool with None => [] | Some _ => [PoolClose] end, (o1, Ok (cost, pos)))
        end
     end).
  { destruct pool as [[|k]|]; [congruence| |]; symmetry; exact H. }
  clear H. assert (B : (if verbose then match pool with Some 0 => [] | _ => Bar iters :: map Postfix l end else []) = (if verbose then [Bar iters] else []) ++ ev).
  { subst ev. destruct verbose; [|reflexivity]. destruct pool as [[|k]|]; [congruence| |]; reflexivity. }
  assert (PO : (match pool with None | Some O => [] | Some n => [PoolOpen n] end) = (match pool with None => [] | Some n => [PoolOpen n] end)).
  { destruct pool as [[|k]|]; [congruence| |]; reflexivity. }
  rewrite B, PO. destruct lr as [o1|o1 x]; cbn [end_state] in L1.
  - destruct (final_result o1) as [[cost pos]|x]; injection E as -> -> ->; (split; [exact L1|]); (split; [congruence|]); cbn [finished]; rewrite ?app_nil_r, <- ?app_assoc; reflexivity.
  - injection E as -> -> ->. split; [exact L1|]. split; [congruence|]. cbn [finished]. rewrite app_nil_r. reflexivity.
Qed.

Lemma postfix_map : forall l, postfixes (map Postfix l) = l.
Proof. unfold postfixes. induction l as [|b l IH]; [reflexivity|]. cbn. rewrite IH. reflexivity. Qed.

(** *** C71 *)
Lemma verbose_silent : forall c e pool iters o verbose evs o' r, reported verbose c e pool iters o = (evs, (o', r)) <->
  optimize c e pool iters o = (o', r) /\ evs = fst (reported verbose c e pool iters o).
Proof.
  intros. rewrite <- (report_erase verbose). destruct (reported verbose c e pool iters o) as [ev [o1 r1]]. cbn [fst snd]. split.
  - intros E. injection E as -> -> ->. auto.
  - intros [E ->]. injection E as -> ->. reflexivity.
Qed.

Lemma same_run : forall c e pool iters o verbose, snd (reported verbose c e pool iters o) = optimize c e pool iters o.
Proof. intros. apply report_erase. Qed.
Lemma bar_shows : forall c e pool iters o evs o' r, reported true c e pool iters o = (evs, (o', r)) ->
  o_cost_history o' = o_cost_history o ++ postfixes evs.
Proof.
  intros c e pool iters o evs o' r H. apply report_shape in H. destruct H as (l & L & L0 & ->). rewrite L. f_equal.
  assert (F : postfixes (finished r (log_level true) pool) = []).
  { unfold finished. destruct r as [[cost pos]|x]; [|reflexivity]. destruct pool; reflexivity. }
  rewrite !postfixes_app, F, app_nil_r. destruct pool as [[|k]|].
  - rewrite L0 by reflexivity. reflexivity.
  - symmetry. apply (postfix_map l).
  - symmetry. apply (postfix_map l).
Qed.
Lemma in_report : forall verbose c e pool iters o evs o' r ev, reported verbose c e pool iters o = (evs, (o', r)) -> In ev evs ->
  ev = Log DEBUG MArgs \/ ev = Log (log_level verbose) (MStart iters (c_options c)) \/ (exists n, ev = PoolOpen n /\ pool = Some n /\ n <> 0) \/
  (verbose = true /\ (ev = Bar iters \/ exists b, ev = Postfix b)) \/ (exists cost pos, r = Ok (cost, pos) /\ ev = Log (log_level verbose) (MFinish cost pos)) \/
  (ev = PoolClose /\ pool <> None /\ exists v, r = Ok v).
Proof.
  intros verbose c e pool iters o evs o' r ev H I. apply report_shape in H. destruct H as (l & L & L0 & ->).
  apply in_app_or in I. destruct I as [[<-|[<-|[]]]|I]; auto. apply in_app_or in I. destruct I as [I|I].
  { destruct pool as [[|k]|]; [destruct I| |destruct I]. destruct I as [<-|[]]. right; right; left. exists (S k). auto. }
  apply in_app_or in I. destruct I as [I|I].
  { destruct verbose; [|destruct I]. right; right; right; left. split; [reflexivity|]. destruct pool as [[|k]|]; [destruct I| |]; (destruct I as [<-|I]; [auto|]);
      apply in_map_iff in I; destruct I as (b & <- & _); eauto. }
  unfold finished in I. destruct r as [[cost pos]|x]; [|destruct I]. destruct I as [<-|I]; [right; right; right; right; left; eauto|].
  destruct pool as [k|]; [|destruct I]. destruct I as [<-|[]]. right; right; right; right; right. split; [reflexivity|]. split; [discriminate|eauto].
Qed.
Lemma report_finish : forall c e pool iters o evs o' r, reported true c e pool iters o = (evs, (o', r)) ->
  forall cost pos, In (Log INFO (MFinish cost pos)) evs <-> r = Ok (cost, pos).
Proof.
  intros c e pool iters o evs o' r H cost pos. split.
  - intros I. destruct (in_report _ _ _ _ _ _ _ _ _ _ H I) as [E|[E|[(n & E & _)|[(_ & [E|(b & E)])|[(x & y & R & E)|(E & _)]]]]]; try discriminate.
    injection E as -> ->. exact R.
  - intros ->. apply report_shape in H. destruct H as (l & _ & _ & ->). apply in_or_app. right. apply in_or_app. right. apply in_or_app. right. left. reflexivity.
Qed.
Lemma quiet : forall c e pool iters o evs o' r, reported false c e pool iters o = (evs, (o', r)) ->
  forall level ev, In ev evs -> visible level ev = true -> ev = Log DEBUG MArgs /\ level <= DEBUG.
Proof.
  intros c e pool iters o evs o' r H level ev I V.
  destruct (in_report _ _ _ _ _ _ _ _ _ _ H I) as [E|[E|[(n & E & _)|[(E & _)|[(x & y & R & E)|(E & _)]]]]]; try discriminate; subst ev; try discriminate.
  split; [reflexivity|]. unfold visible in V. apply andb_prop in V. destruct V as [_ V]. apply Nat.leb_le in V. exact V.
Qed.

(** *** C72 *)
Lemma pool_opened : forall verbose c e pool iters o evs o' r, reported verbose c e pool iters o = (evs, (o', r)) ->
  (forall n, In (PoolOpen n) evs <-> pool = Some n /\ n <> 0) /\ (In PoolClose evs <-> pool <> None /\ exists v, r = Ok v).
Proof.
  intros verbose c e pool iters o evs o' r H. split; [intros n|]; split.
  - intros I. destruct (in_report _ _ _ _ _ _ _ _ _ _ H I) as [E|[E|[(m & E & P & N)|[(_ & [E|(b & E)])|[(x & y & R & E)|(E & _)]]]]]; try discriminate.
    injection E as ->. auto.
  - intros [-> N]. apply report_shape in H. destruct H as (l & _ & _ & ->). apply in_or_app. right. apply in_or_app. left. destruct n; [congruence|]. left. reflexivity.
  - intros I. destruct (in_report _ _ _ _ _ _ _ _ _ _ H I) as [E|[E|[(m & E & P & N)|[(_ & [E|(b & E)])|[(x & y & R & E)|(E & P)]]]]]; try discriminate. exact P.
  - intros [N [v ->]]. apply report_shape in H. destruct H as (l & _ & _ & ->). do 3 (apply in_or_app; right). destruct v as [cost pos]. right. destruct pool; [left; reflexivity|congruence].
Qed.
Lemma pool_leak : forall verbose c e pool iters o evs o' r, reported verbose c e pool iters o = (evs, (o', r)) ->
  (pool_left_open evs <-> (exists n, pool = Some (S n)) /\ exists x, r = Err x).
Proof.
  intros verbose c e pool iters o evs o' r H. destruct (pool_opened _ _ _ _ _ _ _ _ _ H) as [A B]. unfold pool_left_open. split.
  - intros [[n I] C]. apply A in I. destruct I as [-> N]. destruct n as [|n]; [congruence|]. split; [eauto|]. destruct r as [v|x]; [|eauto].
    exfalso. apply C, B. split; [discriminate|eauto].
  - intros [[n ->] [x ->]]. split; [exists (S n); apply A; split; [reflexivity|discriminate]|]. intros I. apply B in I. destruct I as (_ & v & E). discriminate.
Qed.

(** *** C73: configuration of the reporter *)
Lemma or_else_none : forall a, or_else a None = None <-> a = None \/ a = Some ""%string.
Proof.
  intros [s|]; cbn; [|tauto]. destruct (String.eqb_spec s "") as [->|N]; split; auto; try discriminate. intros [E|E]; [discriminate|]. injection E as ->. congruence.
Qed.
Section Setup.
Context {D : Type} (load : string -> res D) (dict_config : logging_config D -> res unit).
Notation setup := (setup_logger load dict_config).
Lemma chosen_or : forall path env v, or_else path env = Some v <-> chosen path env v.
Proof.
  intros [s|] env v; cbn; unfold chosen.
  - destruct (String.eqb_spec s "") as [->|N].
    + split; [auto|]. intros [[E N]|[_ E]]; [injection E as <-; congruence|exact E].
    + split; [intros E; injection E as <-; auto|]. intros [[E _]|[[E|E] _]]; [exact E|discriminate|injection E as ->; congruence].
  - split; [auto|]. intros [[E _]|[_ E]]; [discriminate|exact E].
Qed.
Lemma custom_iff : forall log_path path env cwd doc, setup log_path path env cwd = Ok (Custom doc) <->
  exists v, chosen path env v /\ load v = Ok doc /\ dict_config (Custom doc) = Ok tt.
Proof.
  intros log_path path env cwd doc. unfold setup_logger. split.
  - intros H. destruct (or_else path env) as [v|] eqn:E; [|cbn in H; destruct (dict_config (Default _)); discriminate].
    apply chosen_or in E. exists v. split; [exact E|].
    destruct (load v) as [d|x]; cbn [bind] in H.
    + destruct (dict_config (Custom d)) as [[]|x] eqn:EC; cbn [bind] in H.
      * injection H as ->. auto.
      * destruct (caught x); [|discriminate]. destruct (dict_config (Default _)); discriminate.
    + destruct (caught x); [|discriminate]. destruct (dict_config (Default _)); discriminate.
  - intros (v & E & L & C). apply chosen_or in E. rewrite E, L. cbn [bind]. rewrite C. reflexivity.
Qed.
Lemma default_iff : forall log_path path env cwd f, setup log_path path env cwd = Ok (Default f) <->
  dict_config (Default f) = Ok tt /\ ((log_path = None \/ log_path = Some ""%string) /\ f = (cwd ++ "/report.log")%string \/ log_path = Some f /\ f <> ""%string) /\
  ((forall v, ~ chosen path env v) \/ exists v, chosen path env v /\
     (load v = Err TypeError \/ load v = Err FileNotFoundError \/ exists doc, load v = Ok doc /\ (dict_config (Custom doc) = Err TypeError \/ dict_config (Custom doc) = Err FileNotFoundError))).
Proof.
  intros log_path path env cwd f.
  assert (LF : log_file log_path cwd = f <-> ((log_path = None \/ log_path = Some ""%string) /\ f = (cwd ++ "/report.log")%string \/ log_path = Some f /\ f <> ""%string)).
  { unfold log_file. destruct log_path as [s|]; cbn.
    - destruct (String.eqb_spec s "") as [->|N].
      + split; [intros <-; left; auto|]. intros [[_ E]|[E N]]; [congruence|]. injection E as <-. congruence.
      + split; [intros <-; right; auto|]. intros [[[E|E] _]|[E _]]; [discriminate|injection E as ->; congruence|injection E as ->; reflexivity].
    - split; [intros <-; left; auto|]. intros [[_ E]|[E _]]; [congruence|discriminate]. }
  assert (CX : forall x, caught x = true <-> x = TypeError \/ x = FileNotFoundError).
  { intros x. destruct x; cbn; split; auto; try discriminate; intros [E|E]; discriminate. }
  assert (DC : (do _ <- dict_config (Default (log_file log_path cwd)); Ok (Default (log_file log_path cwd))) = @Ok (logging_config D) (Default f) <->
               dict_config (Default f) = Ok tt /\ log_file log_path cwd = f).
  { split.
    - intros H. apply bind_Ok in H. destruct H as ([] & H1 & H2). injection H2 as E. rewrite <- E. auto.
    - intros [H1 H2]. rewrite H2, H1. reflexivity. }
  rewrite <- LF. unfold setup_logger. destruct (or_else path env) as [v|] eqn:E.
  - pose proof (proj1 (chosen_or _ _ _) E) as CH.
    assert (U : forall v', chosen path env v' -> v' = v). { intros v' Q. apply chosen_or in Q. rewrite E in Q. injection Q as ->. reflexivity. }
    destruct (load v) as [doc|x] eqn:L; cbn [bind].
    + destruct (dict_config (Custom doc)) as [[]|x] eqn:C; cbn [bind].
      * split; [discriminate|]. intros (_ & _ & [N|(v' & Q & W)]); [destruct (N v CH)|]. rewrite (U v' Q), L in W.
        destruct W as [W|[W|(d & W & [W2|W2])]]; try discriminate; injection W as <-; congruence.
      * split.
        -- destruct (caught x) eqn:K; [|discriminate]. intros H. apply DC in H. apply CX in K. destruct H as [H1 H2]. split; [exact H1|]. split; [exact H2|]. right. exists v. split; [exact CH|].
           right; right. exists doc. split; [exact L|]. destruct K as [->| ->]; auto.
        -- intros (H1 & H2 & [N|(v' & Q & W)]); [destruct (N v CH)|]. rewrite (U v' Q), L in W.
           assert (K : caught x = true). { apply CX. destruct W as [W|[W|(d & W & [W2|W2])]]; try discriminate; injection W as <-; rewrite C in W2; injection W2 as ->; auto. }
           rewrite K. apply DC. auto.
    + split.
      * destruct (caught x) eqn:K; [|discriminate]. intros H. apply DC in H. apply CX in K. destruct H as [H1 H2]. split; [exact H1|]. split; [exact H2|]. right. exists v. split; [exact CH|].
        rewrite L. destruct K as [->| ->]; auto.
      * intros (H1 & H2 & [N|(v' & Q & W)]); [destruct (N v CH)|]. rewrite (U v' Q), L in W.
        assert (K : caught x = true). { apply CX. destruct W as [W|[W|(d & W & _)]]; [injection W as ->; auto|injection W as ->; auto|discriminate]. }
        rewrite K. apply DC. auto.
  - cbn [caught]. rewrite DC. split.
    + intros [H1 H2]. split; [exact H1|]. split; [exact H2|]. left. intros v Q. apply chosen_or in Q. congruence.
    + intros (H1 & H2 & _). auto.
Qed.
End Setup.
Lemma setup_custom : forall (D : Type) (load : string -> res D) (dict_config : logging_config D -> res unit) log_path path env cwd doc,
  setup_logger load dict_config log_path path env cwd = Ok (Custom doc) <->
  exists v, chosen path env v /\ load v = Ok doc /\ dict_config (Custom doc) = Ok tt.
Proof. intros. apply custom_iff. Qed.
Lemma setup_default : forall (D : Type) (load : string -> res D) (dict_config : logging_config D -> res unit) log_path path env cwd f,
  setup_logger load dict_config log_path path env cwd = Ok (Default f) <->
  dict_config (Default f) = Ok tt /\ ((log_path = None \/ log_path = Some ""%string) /\ f = (cwd ++ "/report.log")%string \/ log_path = Some f /\ f <> ""%string) /\
  ((forall v, ~ chosen path env v) \/ exists v, chosen path env v /\
     (load v = Err TypeError \/ load v = Err FileNotFoundError \/
      exists doc, load v = Ok doc /\ (dict_config (Custom doc) = Err TypeError \/ dict_config (Custom doc) = Err FileNotFoundError))).
Proof. intros. apply default_iff. Qed.
