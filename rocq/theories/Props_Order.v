(** Properties about the order in which tasks run and data moves, for every flow definition the
    builder accepts, every environment and every state an observer can find. *)
From Verif Require Import Order Life Examples.
Local Open Scope Z_scope.

(** C01: whenever an activity is evaluated, every incoming link of its task had been decided before,
    after the task at its source had come to its end, and one of them (if there are any) was true. *)
Theorem C01_links_decided_before_evaluation : forall E d uri s before i id ins it later,
  built d -> built_env E -> visited E d uri s ->
  trace s = before ++ EvAct i id ins it :: later ->
  exists y tk, s_insts s !! i = Some y /\ tk ∈ all_tasks (i_def y) /\ t_id tk = id /\
    (forall l, l ∈ t_from tk ->
       exists b1 b2 z z', before = b1 ++ EvLinkSet i (l_id l) z :: b2 /\ decision z /\
         EvTaskUpd i (l_from l) z' ∈ b1 /\ ends z') /\
    (t_from tk = [] \/ exists l, l ∈ t_from tk /\ EvLinkSet i (l_id l) LTrue ∈ before).
Proof. exact eval_after_links. Qed.
Print Assumptions C01_links_decided_before_evaluation.

(** The join "d" of a diamond with one branch not taken is evaluated. *)
Example C01_example :
  built diamond /\ built_env (env1 act_ok) /\
  visited (env1 act_ok) diamond "u" (after (env1 act_ok) 3 (started (env1 act_ok) diamond "u" ∅)) /\
  evaluations (after (env1 act_ok) 3 (started (env1 act_ok) diamond "u" ∅)) =
    [(0%nat, "a"); (0%nat, "b"); (0%nat, "d")] /\
  (length ∘ t_from) <$> get_task diamond "d" = Some 2%nat.
Proof. split_and!; [exact diamond_built|apply env1_built|apply visited_after|ev|ev]. Qed.

(** C05: a task on or behind a cycle is never evaluated and never gets another status than
    Entered. *)
Theorem C05_cycle_never_runs : forall E d uri s i y id,
  built d -> built_env E -> visited E d uri s -> s_insts s !! i = Some y ->
  (forall tk, tk ∈ all_tasks (i_def y) -> t_id tk = id -> behind_cycle (i_def y) tk) ->
  (forall ins it, EvAct i id ins it ∉ trace s) /\ (forall z, EvTaskUpd i id z ∈ trace s -> z = TEntered).
Proof. exact cycle_never_runs. Qed.
Print Assumptions C05_cycle_never_runs.

(** In [cyclic] task "a" runs and enters "b", which is on the cycle. *)
Example C05_example :
  built cyclic /\ (forall tk, tk ∈ all_tasks cyclic -> t_id tk <> "a" -> behind_cycle cyclic tk) /\
  evaluations (after (env1 act_ok) 2 (started (env1 act_ok) cyclic "u" ∅)) = [(0%nat, "a")] /\
  EvTaskUpd 0 "b" TEntered ∈ trace (after (env1 act_ok) 2 (started (env1 act_ok) cyclic "u" ∅)).
Proof.
  split_and!; [exact cyclic_built|exact cyclic_behind|ev|]. apply upd_check. ev.
Qed.

(** C09: work items are taken in the order in which they were scheduled, none is lost or taken
    twice, and they are numbered 1, 2, 3, ... *)
Theorem C09_first_in_first_out : forall E d uri s, visited E d uri s ->
  scheduled s = executed s ++ pending s /\
  (fun p => p.1.1) <$> scheduled s = seq 1 (length (scheduled s)).
Proof. exact queue_is_fifo. Qed.
Print Assumptions C09_first_in_first_out.

(** Two lines of tasks, after three of four steps. *)
Example C09_example :
  let s := after (env1 act_ok) 3 (started (env1 act_ok) two_lines "u" ∅) in
  visited (env1 act_ok) two_lines "u" s /\
  executed s = [(1, 0, "a"); (2, 0, "b"); (3, 0, "c")]%nat /\ pending s = [(4, 0, "d")]%nat.
Proof. split_and!; [apply visited_after|ev|ev]. Qed.

(** C20, first part: subflow ids are 1, 2, 3, ... in the order of creation. *)
Theorem C20_subflow_ids : forall E d uri s, visited E d uri s ->
  subflow_ids s = seq 1 (length (subflow_ids s)).
Proof. exact subflows_numbered. Qed.
Print Assumptions C20_subflow_ids.

(** C20, second part: a task instance that waits (not ready, not queued) is put into the queue only
    in a step in which a subflow it hosts completed or failed, or in which it was made ready
    anew. *)
Theorem C20_resumed_by_its_subflow : forall E d uri s t x,
  running E d uri s -> s_tis s !! t = Some x -> ti_status x <> TReady -> ~ queued s t ->
  queued (do_step E s).2 t ->
  exists new, trace (do_step E s).2 = trace s ++ new /\
   ((exists j y z, s_insts (do_step E s).2 !! j = Some y /\ i_host y = Some t /\
       (z = FCompleted \/ z = FFailed) /\ EvFlowStatus j z ∈ new) \/
    EvTaskUpd (ti_inst x) (t_id (ti_task x)) TReady ∈ new).
Proof. exact resumed_by_subflow. Qed.
Print Assumptions C20_resumed_by_its_subflow.

(** Task "a" waits for its subflow; the step that completes the subflow queues it again. *)
Example C20_example :
  let s := after env_sub 1 (started env_sub caller "u" ∅) in
  running env_sub caller "u" s /\
  (exists x, s_tis s !! 0%nat = Some x /\ ti_status x = TWaiting) /\ ~ queued s 0 /\
  queued (do_step env_sub s).2 0 /\ subflow_ids s = [1%nat].
Proof.
  split_and!; [apply started_running|apply (some_check (fun x => ti_status x = TWaiting)); ev| | |ev].
  - unfold queued. apply (bool_decide_eq_false_1 _). ev.
  - unfold queued. apply elem_check. ev.
Qed.

(** C32, first part: an activity whose task an interceptor skips or mocks is never evaluated. *)
Theorem C32_never_executed : forall E d uri s i id ins it y c,
  visited E d uri s -> s_insts s !! i = Some y ->
  (task_icpt E id = Some c /\ tc_skip c = true) \/
  (task_icpt E (d_name (i_def y) +:+ "-" +:+ id) = Some c /\ tc_skipexec c = true) ->
  EvAct i id ins it ∉ trace s.
Proof. exact never_executed. Qed.
Print Assumptions C32_never_executed.

(** "b" is skipped and "c" mocked, the flow completes. *)
Example C32_example :
  let s := after env_icpt 4 (started env_icpt two_lines "u" ∅) in
  visited env_icpt two_lines "u" s /\ main_status s = Some FCompleted /\
  evaluations s = [(0%nat, "a"); (0%nat, "d")] /\
  (exists c, task_icpt env_icpt "b" = Some c /\ tc_skip c = true) /\
  (exists c, task_icpt env_icpt (d_name two_lines +:+ "-" +:+ "c") = Some c /\ tc_skipexec c = true).
Proof.
  split_and!; [apply visited_after|ev|ev|apply (some_check (fun c => tc_skip c = true)); ev|].
  apply (some_check (fun c => tc_skipexec c = true)). ev.
Qed.

(** C38: a step changes the attributes of a started flow only if it takes a work item of that very
    flow; and then only the error, those named after the task, and those the activity assigns itself. *)
Theorem C38_attributes_isolated : forall E d uri s j y,
  running E d uri s -> s_insts s !! j = Some y -> i_status y <> FNotStarted ->
  exists new y', trace (do_step E s).2 = trace s ++ new /\ s_insts (do_step E s).2 !! j = Some y' /\
    (i_attrs y' = i_attrs y \/
     exists w id later, new = EvQDel w j id :: later /\ forall k, ~ named_for E id k -> i_attrs y' !! k = i_attrs y !! k).
Proof. exact attributes_isolated. Qed.
Print Assumptions C38_attributes_isolated.

(** C38: a step changes the inputs and the working data of the task instance it takes from the
    queue only; it changes the outputs of another task instance only if a subflow hosted by it
    completes. *)
Theorem C38_tasks_isolated : forall E d uri s t x,
  running E d uri s -> s_tis s !! t = Some x ->
  exists new x', trace (do_step E s).2 = trace s ++ new /\ s_tis (do_step E s).2 !! t = Some x' /\
    ((exists w later, new = EvQDel w (ti_inst x) (t_id (ti_task x)) :: later /\
        exists q, s_queue s = (w, t) :: q) \/
     (ti_in x' = ti_in x /\ ti_wd x' = ti_wd x /\
      (ti_out x' = ti_out x \/
       exists j y, s_insts (do_step E s).2 !! j = Some y /\ i_host y = Some t /\ EvFlowStatus j FCompleted ∈ new))).
Proof. exact tasks_isolated. Qed.
Print Assumptions C38_tasks_isolated.

(** Both flows have attributes; the step of the subflow's task changes the subflow's. *)
Example C38_example :
  let s := after env_sub 1 (started env_sub caller "u" {[ "p" := VInt 1 ]}) in
  running env_sub caller "u" s /\
  (exists y, s_insts s !! 0%nat = Some y /\ (i_status y = FActive /\ i_attrs y !! "p" = Some (VInt 1))) /\
  (exists y, s_insts s !! 1%nat = Some y /\ (i_status y = FActive /\ i_attrs y !! "_A.x.o" = None)) /\
  (exists y, s_insts (do_step env_sub s).2 !! 1%nat = Some y /\ i_attrs y !! "_A.x.o" = Some (VStr "x")) /\
  (exists y, s_insts (do_step env_sub s).2 !! 0%nat = Some y /\ i_attrs y !! "_A.x.o" = None).
Proof.
  split_and!; [apply started_running|..].
  - apply (some_check (fun y => i_status y = FActive /\ i_attrs y !! "p" = Some (VInt 1))). ev.
  - apply (some_check (fun y => i_status y = FActive /\ i_attrs y !! "_A.x.o" = None)). ev.
  - apply (some_check (fun y => i_attrs y !! "_A.x.o" = Some (VStr "x"))). ev.
  - apply (some_check (fun y => i_attrs y !! "_A.x.o" = None)). ev.
Qed.

(** C42: the first status published for a task is Entered. *)
Theorem C42_entered_first : forall E d uri s before i id z later,
  visited E d uri s -> trace s = before ++ EvTaskUpd i id z :: later ->
  z = TEntered \/ EvTaskUpd i id TEntered ∈ before.
Proof. exact entered_first. Qed.
Print Assumptions C42_entered_first.

(** C42: an activity is evaluated only after its task was made ready, while the work item taken
    last is one of that task. *)
Theorem C42_ready_before_evaluation : forall E d uri s before i id ins it later,
  visited E d uri s -> trace s = before ++ EvAct i id ins it :: later ->
  EvTaskUpd i id TReady ∈ before /\
  exists b1 b2 w, before = b1 ++ EvQDel w i id :: b2 /\ forall w' i' id', EvQDel w' i' id' ∉ b2.
Proof. exact ready_before_evaluation. Qed.
Print Assumptions C42_ready_before_evaluation.

(** C42: once a task instance is done or skipped and taken out of the table of live tasks, its
    status never changes again. *)
Theorem C42_final_status : forall E d uri s n t z,
  z = TDone \/ z = TSkipped -> running E d uri s -> settled s t z -> settled (after E n s) t z.
Proof. exact settled_forever. Qed.
Print Assumptions C42_final_status.

(** "a" is settled after the first step of the diamond flow; the run goes on for two steps. *)
Example C42_example :
  let s := after (env1 act_ok) 1 (started (env1 act_ok) diamond "u" ∅) in
  running (env1 act_ok) diamond "u" s /\ settled s 0 TDone /\ settled s 2 TSkipped /\
  evaluations (after (env1 act_ok) 2 s) = [(0%nat, "a"); (0%nat, "b"); (0%nat, "d")].
Proof. split_and!; [apply started_running|apply settled_check; ev|apply settled_check; ev|ev]. Qed.
