(** Whole runs of acyclic flows. *)
From Verif Require Import Entire Examples3.
Local Open Scope Z_scope.

(** C02, for flows without subflows and shortcuts whose error handler, if any, is not started: whatever activities and
    expressions do, no task is evaluated twice.
    Missing: flows whose error handler is started or that start subflows; with a shortcut it is false, see [C02_refuted]. *)
Theorem C02_partial : forall E d uri, simple_flow d -> orderly E -> no_takeover E d ->
  forall s, visited E d uri s -> NoDup (evaluations s).
Proof. exact flow_once. Qed.
Print Assumptions C02_partial.

(** The end of a flow with a failing task, a skipped task and a join. *)
Definition branches_end : st := (run_flow (env1 (act_fail ["b"])) ro0 branches "u" ∅).2.
Example C02_example :
  simple_flow branches /\ orderly (env1 (act_fail ["b"])) /\ no_takeover (env1 (act_fail ["b"])) branches /\
  visited (env1 (act_fail ["b"])) branches "u" branches_end /\
  evaluations branches_end = [(0%nat, "a"); (0%nat, "b"); (0%nat, "e")].
Proof. split_and!; [exact branches_simple|apply env1_orderly|right; exact branches_handled|by right; eexists _, _|ev]. Qed.

(** C03, for flows without subflows and shortcuts: if every activity ends in its call and every failing task has an error
    link, the flow completes in at most as many steps as there are tasks; also in the loop of the
    action, where states are recorded between the steps.
    Missing: flows with subflows, failures that start the error handler; with a shortcut it is false, see [C03_refuted]. *)
Theorem C03_completes_partial : forall E d uri, simple_flow d -> orderly E ->
  forall s, sync_env false E -> failures_handled E d -> d_tasks d <> [] -> running E d uri s ->
  (exists n, (n <= length (d_tasks d))%nat /\ main_status (after E n s) = Some FCompleted) /\
  (exists n, (n <= length (d_tasks d))%nat /\ main_status (laps E n s) = Some FCompleted).
Proof. exact flow_completes. Qed.
Print Assumptions C03_completes_partial.

(** C03, the same for a whole run of the action: it ends with the flow completed. *)
Theorem C03_run_partial : forall E d uri, simple_flow d -> orderly E ->
  forall ro ins, sync_env false E -> failures_handled E d -> d_tasks d <> [] ->
  (run_flow E ro d uri ins).1 = Ok tt -> Z.of_nat (length (d_tasks d)) < ro_max ro - first_count ro ->
  main_status (run_flow E ro d uri ins).2 = Some FCompleted.
Proof. exact flow_run_completes. Qed.
Print Assumptions C03_run_partial.

(** C03: when such a flow has completed, each task has been evaluated once or skipped, never both. Activities
    may here also wait to be resumed. *)
Theorem C03_each_task_partial : forall E d uri, simple_flow d -> orderly E -> no_takeover E d ->
  forall s, no_return E -> (forall tk, tk ∈ d_tasks d -> smooth E tk) ->
  visited E d uri s -> main_status s = Some FCompleted ->
  forall tk, tk ∈ d_tasks d -> once_or_skipped s tk.
Proof. exact flow_once_or_skipped. Qed.
Print Assumptions C03_each_task_partial.

Example C03_example :
  simple_flow branches /\ orderly (env1 (act_fail ["b"])) /\ sync_env false (env1 (act_fail ["b"])) /\
  failures_handled (env1 (act_fail ["b"])) branches /\ d_tasks branches <> [] /\
  running (env1 (act_fail ["b"])) branches "u" (started (env1 (act_fail ["b"])) branches "u" ∅) /\
  (run_flow (env1 (act_fail ["b"])) ro0 branches "u" ∅).1 = Ok tt /\
  Z.of_nat (length (d_tasks branches)) < ro_max ro0 - first_count ro0 /\
  (forall tk, tk ∈ d_tasks branches -> smooth (env1 (act_fail ["b"])) tk) /\
  no_return (env1 (act_fail ["b"])).
Proof.
  split_and!; [exact branches_simple|apply env1_orderly|intros ??; apply act_fail_sync|exact branches_handled|vm_compute; discriminate|
    constructor|ev|ev|apply branches_smooth|intros n v; apply (sync_noret false), act_fail_sync].
Qed.

(** C04: what happened to each task of such a flow by the time it has completed: see [task_story]. *)
Theorem C04_partial : forall E d uri, simple_flow d -> orderly E -> no_takeover E d ->
  forall s, no_return E -> (forall tk, tk ∈ d_tasks d -> smooth E tk) ->
  visited E d uri s -> main_status s = Some FCompleted ->
  forall tk, tk ∈ d_tasks d -> exists z, task_story d s tk z.
Proof. exact flow_story. Qed.
Print Assumptions C04_partial.

(** "b" fails, "c" and the join "d" are skipped, and "e" is reached by the error link. *)
Example C04_example :
  visited (env1 (act_fail ["b"])) branches "u" branches_end /\ main_status branches_end = Some FCompleted /\
  (filter (fun p => TDone <= p.2)) (omap (fun e => match e with EvTaskUpd 0 id z => Some (id, z) | _ => None end) (trace branches_end)) =
    [("a", TDone); ("c", TSkipped); ("c", TSkipped); ("b", TFailed); ("d", TSkipped); ("d", TSkipped); ("e", TDone)].
Proof. split_and!; [by right; eexists _, _|ev|ev]. Qed.

(** C08, for flows without subflows and shortcuts whose error handler, if any, is not started and whose activities do not use Return (they may fail or wait): when the
    flow is Completed no work is queued, and no task is entered, ready or waiting.
    Missing: flows with subflows, shortcuts or a started error handler; with a cycle it is false, see [C08_refuted]. *)
Theorem C08_partial : forall E d uri, simple_flow d -> orderly E -> no_takeover E d ->
  forall s, no_return E -> visited E d uri s -> main_status s = Some FCompleted ->
  s_queue s = [] /\ exists y, s_insts s !! 0%nat = Some y /\
    forall id t, i_tasks y !! id = Some t -> exists x, s_tis s !! t = Some x /\ TDone <= ti_status x.
Proof. exact flow_nothing_left. Qed.
Print Assumptions C08_partial.

(** As above; tasks that have ended are no longer registered. *)
Example C08_example :
  visited (env1 (act_fail ["b"])) branches "u" branches_end /\ main_status branches_end = Some FCompleted /\
  (fun y => elements (dom (i_tasks y))) <$> s_insts branches_end !! 0%nat = Some [].
Proof. split_and!; [by right; eexists _, _|ev|ev]. Qed.
