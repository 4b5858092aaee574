(** Which errors are retried, and how often. *)
From Verif Require Import Examples19.
Local Open Scope Z_scope.

(** C54: in an evaluation of a basic task that does not wait, every call of its activity but the last ended with an error that is marked as retriable.
    Missing: the evaluation of a task that waited, for which it is false ([C54_post_refuted]); that every round of a loop has the configured number of retries,
    which is false ([C54_loop_refuted]). *)
Theorem C54_retriable_partial : forall E d uri s t x r s1 c,
  running E d uri s -> evaluates E s t x r s1 -> ti_status x <> TWaiting -> t_type (ti_task x) = TBasic ->
  retries_left (ti_task x) (ti_wd x) c -> smooth E (ti_task x) ->
  exists bad o, outcomes (ti_inst x) (t_id (ti_task x)) (happened s s1) = bad ++ [o] /\
    forall o', o' ∈ bad -> exists m cd dt n, o' = Some (EAct m cd dt true n).
Proof. exact retried_only. Qed.
Print Assumptions C54_retriable_partial.

(** Two retries, both used. *)
Example C54_retriable_example :
  let s0 := started (env_retry 4) retry_flow "u" ∅ in let w := walk (env_retry 4) 0 1 [] s0 in
  rounds (env_retry 4) 0 s0 w.1.1 w.1.2 /\
  (exists x, s_tis s0 !! 0%nat = Some x /\ ti_status x <> TWaiting /\ t_type (ti_task x) = TBasic /\
    retries_left (ti_task x) (ti_wd x) 2 /\ smooth (env_retry 4) (ti_task x)) /\
  (fun r => (length (outcomes 0 "a" (rd_events r)), rd_result r)) <$> w.1.1 = [(3%nat, inr EvalDone)].
Proof.
  cbv zeta. split_and!; [apply walk_rounds; [apply rounds_nil|ev]| |ev].
  eexists. split; [ev|]. split_and!; try ev; try done; [by split; [exists 0|]|].
  split_and!; [split_and!; intros; eauto|done|done|]. by intros lc [= <-].
Qed.

(** C54 is false for tasks that waited: the subflow of a task fails with an error that is not retriable; the task has one retry: its activity is called
    again and starts the subflow a second time. *)
Theorem C54_post_refuted : exists E d uri ins, built d /\ acyclic d /\ built_env E /\ SpecSub.recordable E /\ e_conc E = false /\
  let s := (run_flow E ro0 d uri ins).2 in
  (run_flow E ro0 d uri ins).1 = Ok tt /\ evaluations s = [(0, "a"); (1, "x"); (0, "a"); (2, "x")]%nat /\
  outcomes 1 "x" (trace s) = [Some (EAct "failed" "42" VNil false "x")] /\ delivered s = [(None, Some (EAct "failed" "42" VNil false "x"))].
Proof. exact post_retries_all. Qed.
Print Assumptions C54_post_refuted.

(** C54 is false for loops: a task iterates over two elements and has one retry. If the call for the first element fails once, the flow completes; if the one
    for the second fails once, the flow completes; if each of them fails once, the flow fails. All errors are retriable. *)
Theorem C54_loop_refuted : exists E1 E2 E12 d uri ins, built d /\ acyclic d /\ (exists tk, tk ∈ d_tasks d /\ t_id tk = "a" /\ retries_left tk ∅ 1) /\
  let o E := ((fun o => bool_decide (o = None)) <$> outcomes 0 "a" (trace (run_flow E ro0 d uri ins).2), main_status (run_flow E ro0 d uri ins).2) in
  o E1 = ([false; true; true], Some FCompleted) /\ o E2 = ([true; false; true], Some FCompleted) /\ o E12 = ([false; true; false], Some FFailed) /\
  forall e, Some e ∈ outcomes 0 "a" (trace (run_flow E12 ro0 d uri ins).2) -> retriable e = true.
Proof. exact retries_shared. Qed.
Print Assumptions C54_loop_refuted.
