(** Property theorems: runs of the flow action with concurrent task execution. Contains nothing else. *)
From Verif Require Import ConcRunProofs Examples14.
Local Open Scope Z_scope.

(** C10: with concurrent execution, whatever the flow and the interleaving, a run starts at most one goroutine more than the limit says (each evaluates one
    work item). *)
Theorem C10_concurrent : forall E ro d uri ins chs, 0 <= ro_max ro ->
  (length (c_threads (r_conc (crun_run E ro chs (crun_start E ro d uri ins)))) <= Z.to_nat (ro_max ro) + 1)%nat.
Proof. exact at_most. Qed.
Print Assumptions C10_concurrent.

(** A flow of two tasks with limit 0: the second task is not evaluated. *)
Example C10_concurrent_example :
  let r := crun_run env_conc (ro_lim 0) ([Loop] ++ all4 0 ++ [Loop] ++ all4 1) (crun_start env_conc (ro_lim 0) row2 "u" ∅) in
  0 <= ro_max (ro_lim 0) /\ length (c_threads (r_conc r)) = 1%nat /\ r_over r = true /\ main_status (c_st (r_conc r)) = Some FActive.
Proof. cbv zeta. split; [done|]. split_and!; ev. Qed.

(** C10: until the loop of the run ends, the limit changes nothing: the run is an interleaving of the unlimited execution (so what is said of all of these,
    C33 and C34, holds for it). *)
Theorem C10_concurrent_same : forall E ro r0 chs, r_over (crun_run E ro chs r0) = false -> r_conc (crun_run E ro chs r0) = conc_run E chs (r_conc r0).
Proof. exact unlimited. Qed.
Print Assumptions C10_concurrent_same.

(** Both tasks of the flow have been evaluated, the result has not been given yet. *)
Example C10_concurrent_same_example :
  let r := crun_run env_conc (ro_lim 5) ([Loop] ++ all4 0 ++ [Loop] ++ all4 1) (crun_start env_conc (ro_lim 5) row2 "u" ∅) in
  r_over r = false /\ evaluations (c_st (r_conc r)) = [(0%nat, "a"); (0%nat, "b")] /\ main_status (c_st (r_conc r)) = Some FCompleted.
Proof. cbv zeta. split_and!; ev. Qed.

(** C10: with concurrent execution the limit is not kept: with limit 2 a flow of three tasks completes and its result is given. Without concurrent execution
    the same run reports that the limit was reached. *)
Theorem C10_concurrent_refuted : exists E d uri ins mx chs, built d /\ e_conc E = true /\ (run_begin E (ro_lim mx) ins (init_st d uri)).1 = Ok tt /\ mx = 2 /\
  (let r := crun_run E (ro_lim mx) chs (crun_start E (ro_lim mx) d uri ins) in
   r_over r = true /\ length (evaluations (c_st (r_conc r))) = 3%nat /\ length (executed (c_st (r_conc r))) = 3%nat /\ main_status (c_st (r_conc r)) = Some FCompleted /\
   delivered (c_st (r_conc r)) = [(None, None)]) /\
  delivered (run_flow (set_e_conc false E) (ro_lim mx) d uri ins).2 = [(None, Some (limit_err E (ro_lim mx)))].
Proof. exact one_step_more. Qed.
Print Assumptions C10_concurrent_refuted.

(** C50: with concurrent execution, whatever the flow, the activities and the interleaving: the caller is told the end exactly once, namely when the loop of
    the run has ended, and never before; goroutines never tell it. *)
Theorem C50_done_once : forall E, e_conc E = true -> forall ro d uri ins chs, ro_detach ro = false ->
  let r := crun_run E ro chs (crun_start E ro d uri ins) in done_signals (c_st (r_conc r)) = if r_over r then [tt] else [].
Proof. exact told_once. Qed.
Print Assumptions C50_done_once.

(** Before and after the end of the loop; the goroutine of "b" goes on after it. *)
Example C50_done_once_example :
  let r := crun_run env_late (ro_lim 10) ([Loop; Loop] ++ all4 0) (crun_start env_late (ro_lim 10) two_starts "u" ∅) in
  let r' := crun_run env_late (ro_lim 10) (Loop :: all4 1) r in
  e_conc env_late = true /\ r_over r = false /\ done_signals (c_st (r_conc r)) = [] /\ r_over r' = true /\ done_signals (c_st (r_conc r')) = [tt].
Proof. cbv zeta. split; [done|]. split_and!; ev. Qed.

(** C50: how a run ends, for every interleaving (without interceptor): there is one moment at which the loop ends; up to it the run is an interleaving of the
    unlimited execution. At that moment either the flow is active, one goroutine more than the limit has been started, a work item is taken from the queue
    and the limit error is the result; or the flow has completed and its data and error are the result; or it has failed and its error is; or it is neither
    (the flow was cancelled, for example) and no result is given. No goroutine is started then. *)
Theorem C50_end : forall E ro, ro_detach ro = false -> 0 <= ro_max ro -> e_icpt E = None -> forall d uri ins chs,
  r_over (crun_run E ro chs (crun_start E ro d uri ins)) = true ->
  exists pre post y res, chs = pre ++ Loop :: post /\
    let c := r_conc (crun_run E ro pre (crun_start E ro d uri ins)) in let c' := r_conc (crun_run E ro (pre ++ [Loop]) (crun_start E ro d uri ins)) in
    c = conc_run E pre (r_conc (crun_start E ro d uri ins)) /\ s_insts (c_st c) !! 0%nat = Some y /\ c_threads c' = c_threads c /\
    delivered (c_st c') = delivered (c_st c) ++ res /\
    (i_status y = FActive /\ length (c_threads c) = (Z.to_nat (ro_max ro) + 1)%nat /\ (exists p, s_queue (c_st c) = p :: s_queue (c_st c')) /\ res = [(None, Some (limit_err E ro))] \/
     i_status y = FCompleted /\ res = [(result_data y, i_rerr y)] \/ i_status y = FFailed /\ res = [(None, i_rerr y)] \/
     i_status y <> FActive /\ i_status y <> FCompleted /\ i_status y <> FFailed /\ res = []).
Proof. exact run_end. Qed.
Print Assumptions C50_end.

(** A completed run, one stopped by the limit and a failed one. *)
Example C50_end_example :
  (let r := crun_run env_conc (ro_lim 5) ([Loop] ++ all4 0 ++ [Loop] ++ all4 1 ++ [Loop]) (crun_start env_conc (ro_lim 5) row2 "u" ∅) in
   e_icpt env_conc = None /\ r_over r = true /\ delivered (c_st (r_conc r)) = [(None, None)]) /\
  (let r := crun_run env_conc (ro_lim 0) ([Loop] ++ all4 0 ++ [Loop]) (crun_start env_conc (ro_lim 0) row2 "u" ∅) in
   r_over r = true /\ delivered (c_st (r_conc r)) = [(None, Some (limit_err env_conc (ro_lim 0)))]) /\
  (let r := crun_run env_late (ro_lim 5) ([Loop] ++ all4 0 ++ [Loop]) (crun_start env_late (ro_lim 5) two_starts "u" ∅) in
   r_over r = true /\ delivered (c_st (r_conc r)) = [(None, Some (EOther "a"))] /\ length (s_queue (c_st (r_conc r))) = 1%nat).
Proof. cbv zeta. split; [split; [done|]; split; ev|]. split; [split; ev|]. split_and!; ev. Qed.

(** C50: the run goes on after its end was told: of two start tasks one fails the flow, the error is the result and the handler is told the end; then the other
    one is evaluated on its goroutine, and its activity gives the handler another result. *)
Theorem C50_refuted : exists E d uri ins ro chs chs', built d /\ e_conc E = true /\ (run_begin E ro ins (init_st d uri)).1 = Ok tt /\
  (let r := crun_run E ro chs (crun_start E ro d uri ins) in let r' := crun_run E ro chs' r in
   r_over r = true /\ main_status (c_st (r_conc r)) = Some FFailed /\ done_signals (c_st (r_conc r)) = [tt] /\
   evaluations (c_st (r_conc r)) = [(0%nat, "a")] /\ delivered (c_st (r_conc r)) = [(None, Some (EOther "a"))] /\
   evaluations (c_st (r_conc r')) = [(0%nat, "a"); (0%nat, "b")] /\ delivered (c_st (r_conc r')) = [(None, Some (EOther "a")); (None, Some (EOther "late"))]).
Proof. exact late_result. Qed.
Print Assumptions C50_refuted.

(** C50: a run stopped by the limit loses a task: it was in the queue and is not any more, it was not evaluated, all goroutines have ended and the flow is
    active, so that nothing will evaluate it. Without concurrent execution it stays in the queue. *)
Theorem C50_dropped_refuted : exists E d uri ins mx chs chs', built d /\ e_conc E = true /\ (run_begin E (ro_lim mx) ins (init_st d uri)).1 = Ok tt /\
  (let r0 := crun_run E (ro_lim mx) chs (crun_start E (ro_lim mx) d uri ins) in let r := crun_run E (ro_lim mx) chs' r0 in
   length (s_queue (c_st (r_conc r0))) = 1%nat /\ evaluations (c_st (r_conc r0)) = [(0%nat, "a")] /\
   (forall chs'', crun_run E (ro_lim mx) chs'' r = r) /\ s_queue (c_st (r_conc r)) = [] /\ main_status (c_st (r_conc r)) = Some FActive /\
   evaluations (c_st (r_conc r)) = [(0%nat, "a")] /\ delivered (c_st (r_conc r)) = [(None, Some (limit_err E (ro_lim mx)))] /\
   exists y t x, s_insts (c_st (r_conc r)) !! 0%nat = Some y /\ i_tasks y !! "b" = Some t /\ s_tis (c_st (r_conc r)) !! t = Some x /\ ti_status x = TReady) /\
  length (s_queue (run_flow (set_e_conc false E) (ro_lim 1) d uri ins).2) = 1%nat /\
  evaluations (run_flow (set_e_conc false E) (ro_lim 1) d uri ins).2 = [(0%nat, "a")].
Proof. exact item_lost. Qed.
Print Assumptions C50_dropped_refuted.

(** C50: once the loop has ended and all goroutines have, nothing happens any more. *)
Theorem C50_settled : forall E ro chs r, r_over r = true -> Forall (eq ThEnd) (c_threads (r_conc r)) -> crun_run E ro chs r = r.
Proof. exact settled. Qed.
Print Assumptions C50_settled.

(** The failed run above, after "b" has been evaluated. *)
Example C50_settled_example :
  let r := crun_run env_late (ro_lim 10) ([Loop; Loop] ++ all4 0 ++ [Loop] ++ all4 1) (crun_start env_late (ro_lim 10) two_starts "u" ∅) in
  r_over r = true /\ Forall (eq ThEnd) (c_threads (r_conc r)) /\ length (c_threads (r_conc r)) = 2%nat.
Proof. cbv zeta. split; [ev|]. split; [apply ended_check; ev|ev]. Qed.

(** C08: with concurrent execution "completed" does not mean that nothing is left to do: all activities succeed, the link from "a" to "c" is unconditional, and
    yet the flow completes and gives its result without "c" ever being evaluated: "c" is queued, but the loop has ended. Goroutine "a" has marked its task done
    and has not entered "c" yet when "b" finishes and finds every task done. Without concurrent execution the same flow evaluates all three. *)
Theorem C08_concurrent_refuted : exists E d uri ins mx chs, built d /\ acyclic d /\ no_parallel d /\ plain_tasks d /\ d_eh d = None /\
  sync_env true E /\ links_ok E /\ settings_ok E /\ mappers_ok E /\ e_icpt E = None /\ e_conc E = true /\
  (let r := crun_run E (ro_lim mx) chs (crun_start E (ro_lim mx) d uri ins) in
   r_over r = true /\ main_status (c_st (r_conc r)) = Some FCompleted /\ delivered (c_st (r_conc r)) = [(None, None)] /\
   evaluations (c_st (r_conc r)) = [(0%nat, "a"); (0%nat, "b")] /\ (forall chs', crun_run E (ro_lim mx) chs' r = r) /\
   length (s_queue (c_st (r_conc r))) = 1%nat /\
   exists y t x, s_insts (c_st (r_conc r)) !! 0%nat = Some y /\ i_tasks y !! "c" = Some t /\ s_tis (c_st (r_conc r)) !! t = Some x /\ ti_status x = TReady) /\
  evaluations (run_flow (set_e_conc false E) (ro_lim mx) d uri ins).2 = [(0%nat, "a"); (0%nat, "b"); (0%nat, "c")].
Proof. exact completes_early. Qed.
Print Assumptions C08_concurrent_refuted.
