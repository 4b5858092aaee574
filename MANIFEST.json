{"claims": [
 {"property": "C01", "status": "proved", "theorems": ["C01_links_decided_before_evaluation"], "note": ""},
 {"property": "C02", "status": "partial", "theorems": ["C02_partial", "C02_refuted"], "note": "proved for flows without subflows and shortcuts whose error handler, if any, is not started; false in general: shortcut past a skipped task"},
 {"property": "C03", "status": "partial", "theorems": ["C03_completes_partial", "C03_run_partial", "C03_each_task_partial", "C03_ends_partial", "C03_run_ends_partial", "C03_refuted"], "note": "proved for flows without subflows and shortcuts whose error handler, if any, is not started: they complete or fail within as many steps as there are tasks, and whole runs return normally; false in general: shortcut past a skipped task"},
 {"property": "C04", "status": "partial", "theorems": ["C04_partial"], "note": "proved for flows without subflows and shortcuts whose error handler, if any, is not started"},
 {"property": "C05", "status": "proved", "theorems": ["C05_cycle_never_runs"], "note": ""},
 {"property": "C06", "status": "proved", "theorems": ["C06_stops", "C06_delivered", "C06_activity"], "note": ""},
 {"property": "C07", "status": "partial", "theorems": ["C07_final", "C07_statuses_partial", "C07_refuted"], "note": "one kind of terminal status is false: completed, then failed within a step"},
 {"property": "C08", "status": "partial", "theorems": ["C08_partial", "C08_refuted", "C08_concurrent_refuted"], "note": "proved for flows without subflows and shortcuts whose error handler, if any, is not started; false in general: tasks on a cycle stay entered; with concurrent execution a flow may complete before the successor of a finished task is entered"},
 {"property": "C09", "status": "proved", "theorems": ["C09_first_in_first_out"], "note": ""},
 {"property": "C10", "status": "partial", "theorems": ["C10_step_limit", "C10_limit_reported", "C10_concurrent", "C10_concurrent_same", "C10_refuted", "C10_concurrent_refuted"], "note": "limit not reported if the initial step is behind the limit; with concurrent execution one task more than the limit is run, and never more than that"},
 {"property": "C11", "status": "proved", "theorems": ["C11_done_once", "C11_results"], "note": ""},
 {"property": "C12", "status": "partial", "theorems": ["C12_partial", "C12_handler", "C12_handler_run", "C12_refuted"], "note": "proved for flows without error handler; false for flows with one: proved that these fail only while the handler runs and then always report a nil error unless an activity returned an error"},
 {"property": "C13", "status": "proved", "theorems": ["C13_handler"], "note": ""},
 {"property": "C14", "status": "proved", "theorems": ["C14_completes", "C14_delivered"], "note": ""},
 {"property": "C15", "status": "proved", "theorems": ["C15_iterator", "C15_iterator_calls", "C15_goes_on"], "note": ""},
 {"property": "C17", "status": "proved", "theorems": ["C17_dowhile", "C15_goes_on"], "note": ""},
 {"property": "C18", "status": "proved", "theorems": ["C18_retry_bound", "C18_retry", "C18_retries_used"], "note": ""},
 {"property": "C16", "status": "partial", "theorems": ["C16_repeat", "C16_not_evaluated", "C16_stalls", "C16_refuted"], "note": "false: loops over waiting activities stall; C16_stalls says when, for every flow"},
 {"property": "C20", "status": "partial", "theorems": ["C20_subflow_ids", "C20_resumed_by_its_subflow", "C20_outputs", "C20_host_outputs_partial", "C20_refuted"], "note": "declared outputs of a subflow without Return are lost"},
 {"property": "C21", "status": "partial", "theorems": ["C21_host_queued_partial", "C21_host_fails_partial", "C21_expression_partial", "C21_refuted", "C21_handler_refuted", "C21_twice_refuted"], "note": "proved that the host is queued and its next evaluation fails with the error, for failed activities and failed expressions; false when another branch of the subflow finishes in between, and when the error handler of the subflow ends with a failed expression or a panic (the host is never told); a subflow that fails twice makes its host run again after it has failed"},
 {"property": "C22", "status": "partial", "theorems": ["C22_subflow_handler_partial", "C22_expression_partial", "C22_refuted", "C22_same_id_refuted"], "note": "proved: the handler of the subflow starts, other flows stay as they are but for the emptied task table of the main flow; false in full because of that table; the table of the subflow is not emptied, so handler tasks share instances with tasks of the same id"},
 {"property": "C23", "status": "proved", "theorems": ["C23_accepted_iff_valid", "C23_graph_as_described"], "note": ""},
 {"property": "C24", "status": "partial", "theorems": ["C24_own_outputs_partial", "C24_resumed_outputs_partial", "C24_names_partial", "C24_refuted"], "note": "proved for task ids without dots; false for names with dots"},
 {"property": "C19", "status": "partial", "theorems": ["C19_accumulated", "C19_stale_refuted"], "note": "for task ids without dots and without interceptor; activities that do not write the attribute themselves. Proved for the outputs a task has after each iteration. Outputs set in an earlier iteration are among them: if the output object of an iteration is what its activity sets in it, the claim is false (C19_stale_refuted)."},
 {"property": "C25", "status": "proved", "theorems": ["C25_order"], "note": "sequential mode; task ids different in main section and error handler"},
 {"property": "C31", "status": "partial", "theorems": ["C31_same_result_partial", "C31_refuted"], "note": "false in general: return data is frozen by observers (C31_refuted); proved for all runs in which every completed flow declares no outputs or returned data before it completed: every combination of listener, recorder mode and change tracking gives the same outcome, deliveries, evaluations, statuses, values and task instances"},
 {"property": "C32", "status": "proved", "theorems": ["C32_never_executed", "C32_mock_outputs", "C32_mock_exception"], "note": "tasks of all three types; the condition of a doWhile loop, evaluated after the mocked round, may still fail"},
 {"property": "C33", "status": "partial", "theorems": ["C33_only_skips_block", "C33_unconditional_partial", "C33_refuted"], "note": "false: skipped task in concurrent mode; proved that nothing else makes a goroutine wait for its own lock, so that flows without conditional links never do"},
 {"property": "C34", "status": "partial", "theorems": ["C34_scheduled_once", "C34_sequential", "C34_refuted"], "note": "scheduling at most once proved for every interleaving; that no join is left behind is false"},
 {"property": "C36", "status": "partial", "theorems": ["C36_refuted"], "note": "false: proved to have no effect in any run"},
 {"property": "C37", "status": "partial", "theorems": ["C37_refuted"], "note": "false"},
 {"property": "C38", "status": "proved", "theorems": ["C38_attributes_isolated", "C38_tasks_isolated"], "note": ""},
 {"property": "C39", "status": "partial", "theorems": ["C39_expression_error", "C39_expression_handled", "C39_subflow", "C39_handling", "C39_refuted"], "note": "proved for errors of expressions in the main flow and in subflows (with an error handler: C22_expression_partial); false for panics, which are taken as false"},
 {"property": "C40", "status": "partial", "theorems": ["C40_start", "C40_stalls", "C40_refuted"], "note": "false: the error is dropped, in every flow one of whose start tasks has settings that cannot be resolved (C40_start, C40_stalls)"},
 {"property": "C42", "status": "proved", "theorems": ["C42_entered_first", "C42_ready_before_evaluation", "C42_final_status"], "note": ""},
 {"property": "C35", "status": "proved", "theorems": ["C35_cache", "C35_resources"], "note": ""},
 {"property": "C26", "status": "partial", "theorems": ["C26_reloaded_partial", "C26_lost_item", "C26_refuted"], "note": "Saving and loading preserves everything listed as long as no queued work item belongs to an ended subflow; such a work item makes loading panic, and such states are reachable (C26_refuted)."},
 {"property": "C27", "status": "partial", "theorems": ["C27_restart_partial", "C27_order_refuted", "C27_ids_refuted", "C27_handling_refuted", "C27_subflow_refuted"], "note": "Holds for main-flow work items when restarting from the beginning or with at most two work items. Refuted: order of longer queues, ids of new work items, error handling flag, subflows."},
 {"property": "C28", "status": "partial", "theorems": ["C28_replay_partial", "C28_recorded_partial", "C28_refuted"], "note": "Replay equals the live state as long as no error handler has emptied the task table and reports come in order; the emptied task table is not recorded (C28_refuted)."},
 {"property": "C29", "status": "partial", "theorems": ["C29_steps_to_snapshot", "C29_latest_partial", "C29_refuted"], "note": "Exact content of the rebuilt base; status and live tasks and links are right, attributes may be older values, removed tasks stay, subflows are missing (C29_refuted, C30_refuted)."},
 {"property": "C30", "status": "partial", "theorems": ["C30_main_flow_partial", "C30_refuted"], "note": "The main flow is complete; subflows and queue are never in the snapshot (C30_refuted)."},
 {"property": "C41", "status": "partial", "theorems": ["C41_names", "C41_refused", "C41_steps", "C41_snapshots", "C41_older_settings", "C41_mode_setting", "C41_step_per_round", "C41_steps_of_run", "C41_step_ids", "C41_refuted"], "note": "The mode part and the step ids hold; exactly one step per engine step holds as long as no subflow fails in it: a failing subflow records an additional step (C41_refuted)."},
 {"property": "C43", "status": "partial", "theorems": ["C43_subflow_inputs", "C43_subflow_missing", "C43_refuted"], "note": "The mapped inputs and the missing subflow are proved; an input that is not mapped is nil instead of its declared default (C43_refuted)."},
 {"property": "C44", "status": "partial", "theorems": ["C44_inputs", "C44_context", "C44_outputs_partial", "C44_error", "C44_error_kept", "C44_error_first"], "note": "Missing: outputs of tasks that waited, interceptors and names with dots for $activity; $error is proved for the state in which the handler has taken over, that $error[a] stays while other tasks are evaluated, and that $error stays until the flow fails."},
 {"property": "C45", "status": "partial", "theorems": ["C45_events", "C45_events_concurrent", "C45_error_refuted", "C45_outputs_refuted", "C45_inputs_refuted"], "note": "Number, order and statuses of the events and the values they report are proved; that they report the error, all returned data and all inputs is refuted. Missing: time, names and ids in the events."},
 {"property": "C46", "status": "partial", "theorems": ["C46_step_ends", "C46_run_ends", "C46_refuted"], "note": "Proved for flows in which no task id is used twice; refuted for a subflow whose error handler uses ids of the main section. Not claimed for the interleavings of concurrent tasks."},
 {"property": "C47", "status": "partial", "theorems": ["C47_step", "C47_run", "C47_fails", "C47_handled", "C47_host", "C47_subflow_partial", "C47_dropped", "C47_refuted", "C47_dropped_refuted"], "note": "Proved for every state and environment, for flows that use task ids once, whose handlers start with tasks that have an activity, and when settings mappers do not panic. Refuted without the last condition: a panic while a panic is handled gets out of the step, and a panic while an error is handled is dropped. C47_dropped: every panic in a flow whose error handling has begun is dropped."},
 {"property": "C48", "status": "partial", "theorems": ["C48_partial", "C48_refuted"], "note": "Proved for resuming a live instance without new inputs and without state recorder. Refuted with new inputs and concurrent task execution: the resumed run waits forever for a lock it holds itself."},
 {"property": "C49", "status": "partial", "theorems": ["C49_same_partial", "C49_start", "C49_refuted", "C49_id_refuted", "C49_subflow_refuted", "C49_panic_refuted", "C49_inputs_refuted"], "note": "Proved: evaluations, statuses, signals and the end are those of the run by the flow action without instance recorder, and the results are, but for the id and one more result after the limit message. The full claim is refuted: two results when the last allowed step fails the flow, the id is not a string, errors and panics of subflows (the on-demand action has no instance recorder, which RecordState dereferences), errors of the input mapper are ignored. Without concurrent task execution."},
 {"property": "C50", "status": "partial", "theorems": ["C50_done_once", "C50_end", "C50_settled", "C50_refuted", "C50_dropped_refuted"], "note": "Proved: the end is told once, when the loop ends, with the result of that state; once the goroutines have ended too nothing happens. False: goroutines still running go on after the end was told, evaluate activities and give results; a run stopped by the limit loses the work item it had taken. The end of the loop and what Run does after it are one piece in the model."},
 {"property": "C51", "status": "partial", "theorems": ["C51_no_work", "C51_not_forgotten_partial", "C51_waits_partial", "C51_never_woken", "C51_no_start", "C51_handler", "C51_refuted"], "note": "Proved for every flow that no work is queued; that a task waits, and that every open task comes after a queued or waiting one, for flows without subflows and shortcuts whose error handler, if any, is not started. False for flows with a shortcut (C51_refuted) and for every flow without start tasks (C51_no_start) and for every flow whose error handler has no start tasks, when it is started by the last queued work (C51_handler); see also C16_stalls, C40_stalls and C21_handler_refuted. A flow without queued work is not woken up by steps or resuming runs (C51_never_woken)."},
 {"property": "C52", "status": "partial", "theorems": ["C52_branch_partial", "C52_refuted"], "note": "Proved for tasks with at least one expression link and exactly one otherwise link, in sequential execution. False for several otherwise links (only the last is followed) and for an otherwise link without expression link (never followed): C52_refuted."},
 {"property": "C53", "status": "partial", "theorems": ["C53_outputs_partial", "C53_refuted"], "note": "Proved for every flow without recorder and listener, for outputs without default. False for outputs with a default (C53_refuted: the default replaces the assigned value) and with a recorder or listener (C31_refuted: the outputs are read before the flow runs)."},
 {"property": "C54", "status": "partial", "theorems": ["C54_retriable_partial", "C54_post_refuted", "C54_loop_refuted"], "note": "Proved for evaluations of basic tasks that do not wait. False for tasks that waited (C54_post_refuted: every activity error is retried) and for the rounds of a loop (C54_loop_refuted: they share one budget)."},
 {"property": "C55", "status": "partial", "theorems": ["C55_handler_only_partial", "C55_taken_over_partial", "C55_refuted", "C55_subflow_refuted"], "note": "Proved for every state in which no other task of the flow is queued, known or host of a subflow, which is how an error leaves a flow with nothing else queued and no subflow. False in general: queued tasks and all that follows them still run (C55_refuted); a running subflow is abandoned when the handler completes the flow (C55_subflow_refuted)."}
]}
