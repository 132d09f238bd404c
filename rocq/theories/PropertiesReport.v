(** What a run reports (C71), the life of its process pool (C72) and the configuration of the reporter (C73). *)
From Coq Require Import String ZArith List Arith Bool.
From Verif Require Import Prelude F64 Num Np Handlers Swarms Operators Generators Topology Optimizers
  Spec Report SpecReport ReportFacts Demo ExamplesReport.
Import ListNotations.
Local Open Scope string_scope.
Local Open Scope list_scope.
Local Open Scope nat_scope.

(** *** C71: the report of a run *)
(** Reporting, whether on or off, changes neither the state nor the result. *)
Theorem C71_same_run : forall c e pool iters o verbose, snd (reported verbose c e pool iters o) = optimize c e pool iters o.
Proof. exact same_run. Qed.
Print Assumptions C71_same_run.
(** The progress bar shows the cost history of the call, also when the call raises. *)
Theorem C71_bar : forall c e pool iters o evs o' r, reported true c e pool iters o = (evs, (o', r)) ->
  o_cost_history o' = o_cost_history o ++ postfixes evs.
Proof. exact bar_shows. Qed.
Print Assumptions C71_bar.
Theorem C71_finish : forall c e pool iters o evs o' r, reported true c e pool iters o = (evs, (o', r)) ->
  forall cost pos, In (Log INFO (MFinish cost pos)) evs <-> r = Ok (cost, pos).
Proof. exact report_finish. Qed.
Print Assumptions C71_finish.
Theorem C71_quiet : forall c e pool iters o evs o' r, reported false c e pool iters o = (evs, (o', r)) ->
  forall level ev, In ev evs -> visible level ev = true -> ev = Log DEBUG MArgs /\ level <= DEBUG.
Proof. exact quiet. Qed.
Print Assumptions C71_quiet.
Example C71_example : exists c e o evs o' cost pos, Fresh c o /\ reported true c e (Some 2) 4 o = (evs, (o', Ok (cost, pos))) /\
  length (postfixes evs) = 4 /\ In (PoolOpen 2) evs /\ In PoolClose evs.
Proof. exact report_demo. Qed.
Example C71_example_quiet : exists c e o evs o' v, Fresh c o /\ reported false c e None 4 o = (evs, (o', Ok v)).
Proof. exact quiet_demo. Qed.

(** *** C72: the process pool *)
Theorem C72_pool : forall verbose c e pool iters o evs o' r, reported verbose c e pool iters o = (evs, (o', r)) ->
  (forall n, In (PoolOpen n) evs <-> pool = Some n /\ n <> 0) /\ (In PoolClose evs <-> pool <> None /\ exists v, r = Ok v).
Proof. exact pool_opened. Qed.
Print Assumptions C72_pool.
(** It stays open exactly if the call raises. *)
Theorem C72_left_open : forall verbose c e pool iters o evs o' r, reported verbose c e pool iters o = (evs, (o', r)) ->
  (pool_left_open evs <-> (exists n, pool = Some (S n)) /\ exists x, r = Err x).
Proof. exact pool_leak. Qed.
Print Assumptions C72_left_open.
Example C72_example : exists c e o evs o' x, Fresh c o /\ reported false c e (Some 2) 5 o = (evs, (o', Err x)) /\ x = UserError 7 /\ pool_left_open evs.
Proof. exact leak_demo. Qed.

(** *** C73: which logging configuration is in force *)
Theorem C73_custom : forall (D : Type) (load : string -> res D) (dict_config : logging_config D -> res unit) log_path path env cwd doc,
  setup_logger load dict_config log_path path env cwd = Ok (Custom doc) <->
  exists v, chosen path env v /\ load v = Ok doc /\ dict_config (Custom doc) = Ok tt.
Proof. exact setup_custom. Qed.
Print Assumptions C73_custom.
Theorem C73_default : forall (D : Type) (load : string -> res D) (dict_config : logging_config D -> res unit) log_path path env cwd f,
  setup_logger load dict_config log_path path env cwd = Ok (Default f) <->
  dict_config (Default f) = Ok tt /\ ((log_path = None \/ log_path = Some ""%string) /\ f = (cwd ++ "/report.log")%string \/ log_path = Some f /\ f <> ""%string) /\
  ((forall v, ~ chosen path env v) \/ exists v, chosen path env v /\
     (load v = Err TypeError \/ load v = Err FileNotFoundError \/
      exists doc, load v = Ok doc /\ (dict_config (Custom doc) = Err TypeError \/ dict_config (Custom doc) = Err FileNotFoundError))).
Proof. exact setup_default. Qed.
Print Assumptions C73_default.
Example C73_example : a_setup None (Some "a.yml") (Some "b.yml") "/tmp" = Ok (Custom 1) /\ a_setup None (Some "") (Some "a.yml") "/tmp" = Ok (Custom 1) /\
  a_setup None (Some "b.yml") (Some "a.yml") "/tmp" = Ok (Default "/tmp/report.log") /\ a_setup (Some "x.log") None None "/tmp" = Ok (Default "x.log") /\
  a_setup None (Some "secret.yml") None "/tmp" = Err (UserError 13).
Proof. exact setup_demo. Qed.
