(** * C12-C14: initialisation, finalisation, parameters *)

From Coq Require Import ZArith List Lia Bool Reals.
From Verif Require Import Base CartModel InitModel InitProofs ParamsModel ParamsProofs.
Import ListNotations.
Open Scope Z_scope.

(** C12: for any number of threads and any interleaving, at every return from
    libgrpp_init and at every answer 1 of libgrpp_is_initialized all tables had
    been constructed. *)
Theorem C12_complete_when_reported : forall ps m,
  reachable ps m -> complete_when_reported (sh_log (m_shared m)).
Proof. exact reported_complete. Qed.
Print Assumptions C12_complete_when_reported.

(** C12: no table is constructed twice when the threads only initialise and query. *)
Theorem C12_tables_built_once : forall ps m,
  (forall p, In p ps -> ~ In CallFinalize p) -> reachable ps m ->
  NoDup (rsh_of (sh_log (m_shared m))) /\ NoDup (rows_of (sh_log (m_shared m))).
Proof. exact init_builds_once. Qed.
Print Assumptions C12_tables_built_once.

(** C12: the spherical harmonic tables are constructed once even across
    finalisation and re-initialisation. *)
Theorem C12_harmonic_tables_built_once_ever : forall ps m,
  reachable ps m -> NoDup (rsh_of (sh_log (m_shared m))).
Proof. exact rsh_once. Qed.
Print Assumptions C12_harmonic_tables_built_once_ever.

(** C12: as long as some thread has not finished its calls, some thread can move. *)
Theorem C12_no_deadlock : forall ps m,
  reachable ps m -> ~ finished m -> exists m', mstep m m'.
Proof. exact progress. Qed.
Print Assumptions C12_no_deadlock.

(** C12: every execution is finite, so every thread returns from every call. *)
Theorem C12_executions_bounded : forall ps n m,
  msteps_n n (start ps) m -> Z.of_nat n <= 1701 * Z.of_nat (total_calls ps).
Proof. exact bounded. Qed.
Print Assumptions C12_executions_bounded.

(** two threads racing for initialisation, one of them asking *)
Example C12_case : exists m, reachable [[CallInit]; [CallInit; CallQuery]] m /\ finished m /\
  (forall p, In p [[CallInit]; [CallInit; CallQuery]] -> ~ In CallFinalize p).
Proof.
  destruct (completes [[CallInit]; [CallInit; CallQuery]] (start [[CallInit]; [CallInit; CallQuery]])) as (m & Hm & F).
  - constructor.
  - exists m. split; [exact Hm|]. split; [exact F|].
    intros p [<-|[<-|[]]]; cbn; intuition discriminate.
Qed.

(** C13: at any moment of any concurrent history the flag is 1 exactly when the last
    call that took effect was an initialisation. *)
Theorem C13_flag_follows_last_call : forall ps m,
  reachable ps m ->
  sh_flag (m_shared m) = if last_is_init (effects_of (sh_log (m_shared m))) then 1 else 0.
Proof. exact flag_right. Qed.
Print Assumptions C13_flag_follows_last_call.

(** C13: every answer of libgrpp_is_initialized agrees with the last call that had
    taken effect. *)
Theorem C13_answers_right : forall ps m,
  reachable ps m -> answers_right (sh_log (m_shared m)).
Proof. exact all_answers_right. Qed.
Print Assumptions C13_answers_right.

(** C13: each row of the Bessel table is filled exactly once per initialisation that
    took effect in the uninitialised state. *)
Theorem C13_constructions_counted : forall ps m,
  reachable ps m ->
  Forall (fun t => t_pc t = Outside) (m_threads m) ->
  forall i, 0 <= i <= 1600 ->
  countz i (rows_of (sh_log (m_shared m))) = fresh_inits (effects_of (sh_log (m_shared m))).
Proof. exact rows_per_init. Qed.
Print Assumptions C13_constructions_counted.

(** C13: for a single thread the answers are those of the two-state machine run on
    its program. *)
Theorem C13_sequential_history : forall p m,
  reachable [p] m -> finished m ->
  rev (queries_of (sh_log (m_shared m))) = answers false p.
Proof. exact sequential_answers. Qed.
Print Assumptions C13_sequential_history.

(** C13: every history can be completed. *)
Theorem C13_histories_complete : forall ps m,
  reachable ps m -> exists m', msteps m m' /\ finished m'.
Proof. exact completes. Qed.
Print Assumptions C13_histories_complete.

Example C13_case :
  answers false [CallQuery; CallInit; CallInit; CallQuery; CallFinalize; CallQuery; CallFinalize; CallInit; CallQuery]
  = [0; 1; 0; 1] /\
  fresh_inits [CallInit; CallFinalize; CallFinalize; CallInit; CallInit] = 2%nat.
Proof. split; reflexivity. Qed.

(** C14: after any history each parameter has the last value set for it, or its
    default after a reset, or its initial value. *)
Theorem C14_parameters_sticky : forall ops p0,
  Forall good_op ops ->
  exists p, prun p0 ops = Ok p /\
    par_radial p = expected sets_radial (/ 10 ^ 16)%R (par_radial p0) (rev ops) /\
    par_angular p = expected sets_angular (/ 10 ^ 16)%R (par_angular p0) (rev ops) /\
    par_bessel p = expected sets_bessel (/ 10 ^ 16)%R (par_bessel p0) (rev ops) /\
    par_order p = expected sets_order OrderDirac (par_order p0) (rev ops).
Proof. exact params_history. Qed.
Print Assumptions C14_parameters_sticky.

(** C14: an undocumented order code aborts. *)
Theorem C14_bad_order_aborts : forall ops1 c ops2 p0,
  Forall good_op ops1 -> order_of_code c = None ->
  prun p0 (ops1 ++ POrder c :: ops2) = Fail AssertFailed.
Proof. exact bad_order_aborts. Qed.
Print Assumptions C14_bad_order_aborts.

(** C14: a process starts with the documented defaults: without any earlier call the parameters
    are those set explicitly, and the defaults otherwise. *)
Theorem C14_from_program_start : forall ops,
  Forall good_op ops ->
  exists p, prun initial_params ops = Ok p /\
    par_radial p = expected sets_radial (/ 10 ^ 16)%R (/ 10 ^ 16)%R (rev ops) /\
    par_angular p = expected sets_angular (/ 10 ^ 16)%R (/ 10 ^ 16)%R (rev ops) /\
    par_bessel p = expected sets_bessel (/ 10 ^ 16)%R (/ 10 ^ 16)%R (rev ops) /\
    par_order p = expected sets_order OrderDirac OrderDirac (rev ops).
Proof. exact params_from_start. Qed.
Print Assumptions C14_from_program_start.

(** C14: libgrpp_set_default_parameters brings every parameter back to its value at the start of
    the process, whatever was set before. *)
Theorem C14_defaults_restore_the_start : forall ops,
  Forall good_op ops -> prun initial_params (ops ++ [PDefaults]) = Ok initial_params.
Proof. exact defaults_restart. Qed.
Print Assumptions C14_defaults_restore_the_start.

Example C14_case :
  Forall good_op [PRadial 1%R; POrder 1; PAngular 2%R; PDefaults; PBessel 3%R] /\
  expected sets_radial (/ 10 ^ 16)%R 7%R (rev [PRadial 1%R; POrder 1; PAngular 2%R]) = 1%R /\
  expected sets_order OrderDirac OrderDirac (rev [PRadial 1%R; POrder 1; PAngular 2%R]) = OrderTurbomole /\
  order_of_code 2 = None.
Proof. repeat split; repeat constructor; discriminate. Qed.
