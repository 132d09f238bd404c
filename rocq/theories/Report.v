(** Model of what a run reports (the [verbose] argument and the process pool of the optimizers)
    and of /repo/pyswarms/utils/reporter/reporter.py. *)
From Coq Require Import String ZArith List Arith Bool.
From Verif Require Import Prelude F64 Num Np Handlers Swarms Operators Generators Topology Optimizers.
Import ListNotations.
Local Open Scope list_scope.
Local Open Scope nat_scope.

(** *** Events of a call *)

(** Log messages: [Obj. func. args], [Optimize for ... iters with ...], [Optimization finished ...].
    (global_best.py:192-196, 255-260, local_best.py:216-220, 283-288, general_optimizer.py:229-233, 295-300, binary.py:180-184, 240-245.) *)
Inductive message : Type := MArgs | MStart (iters : nat) (opts : options F64num) | MFinish (cost : f64) (pos : frow).
(** What a call does to the outside: log records with their level, the progress bar and its postfix, opening and closing the pool.
    The ERROR records that [except] blocks write before re-raising are left out.
    (global_best.py:192-264 and the same places of the other optimizers.) *)
Inductive event : Type :=
| Log (lvl : nat) (m : message) | Bar (iters : nat) | Postfix (cost : f64) | PoolOpen (n : nat) | PoolClose.

(** logging.DEBUG, logging.INFO, logging.NOTSET *)
Definition DEBUG : nat := 10.
(** logging.INFO. (global_best.py:188.) *)
Definition INFO : nat := 20.
(** logging.NOTSET. (global_best.py:190.) *)
Definition NOTSET : nat := 0.
(** global_best.py:187-190, local_best.py:211-214, general_optimizer.py:224-227, binary.py:175-178 *)
Definition log_level (verbose : bool) : nat := if verbose then INFO else NOTSET.
(** global_best.py:215-216, local_best.py:243-244, general_optimizer.py:256-257, binary.py:206-208: the value passed
    to the bar; [o] is the state after the global best was stored (the history does not change it) *)
Definition hook (verbose : bool) (o : ostate) : list event := if verbose then [Postfix (s_best_cost (o_swarm o))] else [].

(** The loop, with its events. (global_best.py:206-248, local_best.py:230-276, general_optimizer.py:244-288, binary.py:193-234.) *)
Fixpoint reported_loop (verbose : bool) (c : config) (e : env) (pool : option nat) (iters m i : nat) (o : ostate) (q : list bool)
  : list event * loop_end :=
  match m with
  | O => ([], LDone o)
  | S m' =>
      match evaluate_swarm c e pool i o q with
      | Raise o' x => ([], LRaise o' x)
      | Break o' => (hook verbose o', LDone o')
      | Next o' q' =>
          match update_swarm c e iters i o' q' with
          | Raise o'' x => (hook verbose o', LRaise o'' x)
          | Break o'' => (hook verbose o', LDone o'')
          | Next o'' q'' =>
              let (evs, r) := reported_loop verbose c e pool iters m' (S i) o'' q'' in (hook verbose o' ++ evs, r)
          end
      end
  end.

(** [optimize] with its events. (global_best.py:186-264, local_best.py:210-292, general_optimizer.py:222-304, binary.py:174-250.) *)
Definition reported (verbose : bool) (c : config) (e : env) (pool : option nat) (iters : nat) (o : ostate)
  : list event * (ostate * res (f64 * frow)) :=
  let lvl := log_level verbose in
  let start := [Log DEBUG MArgs; Log lvl (MStart iters (c_options c))] in
  let o1 := start_memory c o in
  match pool with
  | Some O => (start, (o1, Err ValueError))
  | _ =>
      let opened := match pool with None => [] | Some n => [PoolOpen n] end in
      let closed := match pool with None => [] | Some _ => [PoolClose] end in
      let bar := if verbose then [Bar iters] else [] in
      let (evs, r) := reported_loop verbose c e pool iters iters 0 (start_pbest c o1) [] in
      match r with
      | LRaise o' x => (start ++ opened ++ bar ++ evs, (o', Err x))
      | LDone o' =>
          match final_result o' with
          | Err x => (start ++ opened ++ bar ++ evs, (o', Err x))
          | Ok (cost, pos) => (start ++ opened ++ bar ++ evs ++ [Log lvl (MFinish cost pos)] ++ closed, (o', Ok (cost, pos)))
          end
      end
  end.

(** *** Reporter *)

(** [Reporter.print]: what is printed. (reporter.py:141-162.) *)
Definition print {A} (msg : A) (verbosity threshold : Z) : list A := if (threshold <? verbosity)%Z then [msg] else [].
(** Truth of a string, as in [a or b]. (reporter.py:83, 178.) *)
Definition or_else (a : option string) (b : option string) : option string :=
  match a with Some s => if String.eqb s "" then b else a | None => b end.
(** reporter.py:83 *)
Definition log_file (log_path : option string) (cwd : string) : string :=
  match or_else log_path None with Some s => s | None => (cwd ++ "/report.log")%string end.
(** A logging configuration: the user's document, or the default one with its log file. (reporter.py:86-117, 180-182.) *)
Inductive logging_config (D : Type) : Type := Custom (doc : D) | Default (filename : string).
Arguments Custom {D} doc. Arguments Default {D} filename.
(** The [except] clause of reporter.py:183 *)
Definition caught (x : exn) : bool := match x with TypeError | FileNotFoundError => true | _ => false end.
(** reporter.py:164-188 [_setup_logger], [_load_defaults]: the configuration in force afterwards. The environment variable
    LOG_CFG is [env]; reading and parsing a file ([open], [safe_load]) and [dictConfig] are oracles. *)
Definition setup_logger {D} (load : string -> res D) (dict_config : logging_config D -> res unit)
    (log_path config_path env : option string) (cwd : string) : res (logging_config D) :=
  match
    match or_else config_path env with
    | None => Err TypeError                       (* open(None) *)
    | Some v => do doc <- load v; do _ <- dict_config (Custom doc); Ok (Custom doc)
    end
  with
  | Ok cfg => Ok cfg
  | Err x =>
      if caught x then do _ <- dict_config (Default (log_file log_path cwd)); Ok (Default (log_file log_path cwd))
      else Err x
  end.
