# Formal model of project-flogo/flow: design

Source: `/repo` (Go, read only). Model and proofs: `/verif/rocq/theories` (Coq 8.16.1, std++).
Properties: `/verif/properties.jsonl`. Claims: `/verif/MANIFEST.json`. Mutation log: `/verif/seeded/LOG.jsonl`.

## 1. What is modelled

The engine is a deterministic, total, computable Gallina interpreter. Everything the Go code does not
decide itself is an *environment* `env`, a record of arbitrary functions, over which every theorem is
universally quantified:

* the activity `Eval`/`PostEval` result and the calls it makes on its context (outputs, scope writes,
  Reply, Return, StartSubFlow), as a function of the whole engine state (which contains a counter of
  environment calls, so any sequence of answers, also non-deterministic ones, is covered);
* link expressions, loop conditions, iterateOn expressions, retry count expressions: value, error or panic;
* input/settings mappers, schema validation: value or error;
* flow definition lookup for subflows; value coercions of the core library.

Go map iteration order is arbitrary: wherever the code iterates over a map the model takes a list whose
order is universally quantified (definition tasks, object iterator keys) or the result is order independent.

Go pointers that outlive their map entry (task instances referenced by queued work items, completed
subflows) are modelled by heaps indexed by allocation number; subflow ids identify flow instances.

Panics are a result of the model's state monad (state is kept, as in Go), caught exactly where the code
recovers. The mutual recursion enterTasks/handleTaskDone uses fuel with an explicit out-of-fuel outcome.

Locks are explicit: acquiring a held lock is a `Blocked` outcome.

Every state change that is visible outside (task/link/flow status change, queue push/pop, activity call,
subflow creation, attribute change, result delivery) appends an event to a log; the same events are what
the change tracker and event listeners receive. Observable properties are stated over this log.

## 2. Files

Model (functions of the Go code, one by one; no proofs):

| file | content |
|---|---|
| `Base.v` | values, errors, status constants |
| `FlowDef.v` | definition representation, NewDefinition, createTask, createLink, metadata (definition package) |
| `State.v` | instances, task instances, engine state, environment, events, state monad |
| `Behavior.v` | simple model: Enter, Skip, Done, Error of tasks, flow behaviour |
| `Engine.v` | EvalActivity, PostEvalActivity, retry, iterator, doWhile, enterTasks, handleTaskDone, handleTaskError, HandleGlobalError, subflows, execTask, DoStep, start |
| `RunLoop.v` | FlowAction.Run: options, loop, step limit, delivery of results, recording |
| `Tracker.v` | change tracker, steps, Snapshot, StepsToSnapshot |
| `Ser.v` | marshal/unmarshal, Restart |
| `Resume.v` | OpResume on a live instance, UpdateAttrs |
| `OnDemand.v` | the on-demand action: Run, ApplyMappings (ondemand/action.go) |
| `Manager.v` | flow manager cache, definition lookup, recording modes and their settings |
| `Resolve.v` | the resolvers of references, scopes, the subflow activity |
| `Conc.v` | concurrent execution: DoStepInLoop, goroutines as interleaved pieces |
| `ConcRun.v` | Run with concurrent execution: the step limit of DoStepInLoop, what follows its end |

Specification (words used in theorem statements; nothing in the model uses them): `Spec.v`, `SpecVal.v`, `SpecFlow.v`,
`SpecSub.v`, `SpecRef.v`, `SpecObs.v`, `SpecConc.v`, `SpecTold.v`, `SpecCalm.v`, `SpecResume.v`, `SpecRec.v`.

Theorems, each with an example beside it and `Print Assumptions` below it: `Props_Definition.v`, `Props_Order.v`,
`Props_Run.v`, `Props_Tasks.v`, `Props_Errors.v`, `Props_Leave.v`, `Props_Flow.v`, `Props_Values.v`, `Props_Subflow.v`,
`Props_Refs.v`, `Props_Conc.v`, `Props_Told.v`, `Props_Ends.v`, `Props_Calm.v`, `Props_Ending.v`, `Props_Resume.v`, `Props_SubErrors.v`, `Props_LoopWait.v`, `Props_Entering.v`, `Props_OnDemand.v`, `Props_ConcRun.v`, `Props_Uncond.v`, `Props_Twice.v`, `Props_Waits.v`, `Props_Branch.v`, `Props_Outs.v`, `Props_Retries.v`, `Props_Stale.v`, `Props_SameId.v`, `Props_GoesOn.v`, `Props_Observe.v`, `Props_Record.v`, `Props_Manager.v`; properties the code does not have: `Props_Refuted.v`, `Props_Refuted2.v`
(and the `_refuted` theorems of `Props_Record.v`, `Props_Refs.v`, `Props_Told.v`, `Props_Ends.v`, `Props_Calm.v`, `Props_Resume.v`, `Props_SubErrors.v`, `Props_OnDemand.v`, `Props_ConcRun.v`, `Props_Twice.v`, `Props_Waits.v`, `Props_Branch.v`, `Props_Outs.v`, `Props_Retries.v`, `Props_Stale.v`, `Props_SameId.v`, `Props_GoesOn.v` and `Props_Conc.v`).

Concrete flows and witnesses: `Samples.v`, `Examples*.v`, `Findings*.v`. All other files are lemmas.

### How the proofs are organised

* `Steps.v`, `StepsProof.v`, `StepsEngine.v`: every engine function is a sequence of small atomic steps, each with what is
  known when it happens; `Reach.v`, `Inv.v`, `Events.v`, `Order.v`, `Life.v` prove invariants of all reachable states by
  induction over these steps.
* `Quiet.v`, `Frame.v`, `Around.v`, `Local.v`, `Exact.v`: program logics for what an evaluation or the handling around it
  can change.
* `Acts.v`, `Rounds.v`, `Collect.v`, `Values.v`: what one evaluation and what all evaluations of a looping task do.
* `Whole.v` ... `Entire.v`: an invariant for whole runs of acyclic flows and a measure that decreases with every step.
* `Replay.v`, `Snapshots.v`, `SerProofs.v`, `RestartProofs.v`: the tracker as a fold over the event log.
* `ConcProofs.v`, `Locks.v`: an invariant of all interleavings; when a goroutine waits for its own lock. `Mock.v`: mocked tasks. `Refs.v`: what references stand for. `Told.v`: what a listener is told, in every state. `Bound.v`: recursions end. `Endless.v`: one that does not. `Calm.v`, `Panics.v`: panics are caught, and what is done then. `SubErrors.v`: the same for errors in subflows. `LoopWait.v`: loops whose activity waits. `Entering.v`: settings that cannot be resolved when a flow starts. `Ending.v`: acyclic flows end. `Silent.v`: errors a flow with handler keeps. `Blind.v`: the engine never reads its log. `Observers.v`: a relational logic for two runs, one with observers.

## 3. Plan per property

| id | modelled how | proved how |
|---|---|---|
| C01 | log of link decisions and activity calls | invariant over all engine steps |
| C02 | engine with acyclic definition | invariant: each task is in one of untouched / entered / queued once / finished |
| C03 | same | same invariant plus a measure; fuel shown sufficient by acyclicity |
| C04 | link decisions in the log against a declarative rule | same invariant |
| C05 | engine, arbitrary definition | invariant: no link out of a cycle-dependent task is ever decided |
| C06 | engine step and Run | symbolic execution of the step for arbitrary state |
| C07 | engine, Run | DoStep on terminal states is the identity; invariant on the status events |
| C08 | engine | invariant of C02 at the completing step |
| C09 | queue events in the log | invariant |
| C10 | Run with arbitrary limit, also with concurrent execution | induction on the loop; on the schedule |
| C11 | result events in the log | case analysis of Run over all engines |
| C12 | Run | refuted by a flow whose error handler fails; positive part for flows without error handler; for flows with one an invariant over all states shows exactly when the error is nil (Silent) |
| C13 | HandleGlobalError | symbolic execution for arbitrary state |
| C14 | Return in EvalActivity | symbolic execution for arbitrary state |
| C15 | iterator behaviour inside the engine | induction on the remaining elements |
| C16 | engine | refuted by a concrete flow; for every flow, a loop that was waiting and asks for another round is done and dropped |
| C17 | doWhile behaviour | induction on rounds |
| C18 | evalActivity | induction on the retry budget |
| C19 | handleAccumulation in the iterator loop | induction |
| C20 | embedded instances | invariant on ids; symbolic execution of completion |
| C21 | engine | refuted; positive part when no other work of the subflow is pending |
| C22 | HandleGlobalError | refuted; positive part: all that a handled error in a subflow changes elsewhere is the task table of the main flow |
| C23 | NewDefinition on representations | induction on the lists |
| C24 | name construction | refuted in general; injective when ids contain no dot |
| C25 | entry sorting | sortedness, permutation and stability |
| C26 | marshal/unmarshal of the saved fields as data structures (JSON text itself trusted) | direct |
| C27 | Restart | refuted; positive part for at most two queued items |
| C28 | tracker fold over the event log | invariant; refuted after an error handler started |
| C29 | StepsToSnapshot | refuted parts; positive: status is the latest |
| C30 | Snapshot | refuted; positive part for instances without subflows, except the queue |
| C31 | GetReturnData with observers | refuted; positive for flows that call Return or declare no output |
| C32 | interceptors in EvalActivity | invariant on the log |
| C33 | locks in enterTasks | refuted; positive for flows in which nothing is skipped |
| C34 | interleaving model | refuted; positive part: at most once per task instance |
| C35 | GetFlow as a state machine | induction on the history |
| C36 | Skip | refuted: behaviour is independent of the setting |
| C37 | engine | refuted |
| C38 | engine | invariant per step |
| C39 | EvalLink | refuted; positive part for errors |
| C40 | enterTasks | refuted |
| C41 | ToRecordingMode etc. | case analysis, induction on the run |
| C42 | events in the log | invariant |
| C43 | subflow activity, startInstance | direct, then an invariant per step; refuted for defaults |
| C44 | resolvers | invariants per step on the attributes |
| C45 | postFlowEvent | the events and the assigned values as an invariant of every engine function and every interleaving; witnesses |
| C46 | enterTasks, handleTaskDone, evalActivity, retryEval | every engine function reaches a bound only after a row of skipped tasks longer than the flow has tasks; such a row contains a cycle, whose tasks are never skipped (C05); witness with a knot of two tasks kept by induction on the bound |
| C47 | execTask, HandleGlobalError, DoStep, Run | a logic for the absence of panics; the state a panic leaves behind is reachable (C01 method), so every instance the handling of the panic looks up exists; with C46 a whole run is total |
| C48 | Run, UpdateAttrs | every engine function gives the same outcome, changes and new events whatever the log; the loop splits where there is work left |
| C49 | ondemand Run | both loops are the same program when nothing is recorded; the engine does not read the log (C48), so runs with different first results stay the same; the ends are compared case by case; witnesses |
| C50 | the loop of concurrent execution with its limit, inside Run | invariants over schedules (the count of the loop is the number of goroutines; the signal is given exactly when the loop ends); the moment of the end by induction; witnesses |
| C51 | Run, DoStep, enterTasks, TaskDone | the invariant of C03, with activities that wait: the first open task on the way back from any open task is queued or waits; the loop ends early only when nothing is queued; without start tasks no step changes anything; a logic for what keeps an idle flow idle, combined with C13 for handlers without start tasks; witness |
| C52 | Done, getEnterCode, enterTasks | from C25: the followed links among the outgoing ones are decided by the values of the expressions; witnesses |
| C53 | GetReturnData, Run | a logic for what keeps the return data of the main flow nil until an activity answers, with the values of C45; witness |
| C54 | evalActivity, retryEval, PostEval, getRetryData | from C18; witnesses |
| C55 | HandleGlobalError, enterTasks, handleTaskDone, handleTaskError | a logic over all functions of a step that keeps the queue, the task table and the hosts of subflows free of tasks outside the error handler; C13 for the state it starts from; witnesses |
## 4. Trusted base

* The Coq 8.16.1 kernel and its virtual machine (`vm_compute` is used in examples and `_refuted` theorems).
* `Print Assumptions` says "Closed under the global context" for every theorem in the `Props_*.v` files: no theorem depends
  on an axiom. The development has no axioms of its own, no admitted proofs, no functors and no disabled checks. The loaded libraries (std++, and
  through it ssreflect of the Coq distribution) declare seven constants that a check of the whole context lists:
  `Coq.ssr.ssrunder.Under_rel.Under_rel`, `.Under_rel_from_rel`, `.Under_relE`, `.over_rel`, `.over_rel_done`, `.under_rel_done` and
  `.Over_rel`. They are opaque constants of a sealed module of the Coq distribution; no theorem uses them.
* The correspondence between the Go text and the model, by reading: every definition of the model cites the lines it models and
  says where it simplifies.

Assumed about what surrounds the engine (fields of `env`, arbitrary functions, never axioms): activities (`e_act`, `e_post`),
link expressions (`e_link`), loop conditions (`e_cond`), iterateOn expressions (`e_iter`), numbers in retry settings (`e_num`), input and
settings mappers (`e_inmap`, `e_setmap`), schemas (`e_inschema`, `e_outschema`), coercions (`e_toint`, `e_toarr`, `e_totype`),
assertions (`e_assert`), flow lookup (`e_def`), configuration. Each gets the number of the call and a view of the task, its inputs, its working data
and the attributes of its flow, so it may answer the same question differently every time.

Not modelled: tracing, logging, JSON text syntax (the saved data is modelled, its text is trusted), the expression language and the
implementations of mappers, the core library (coercion, resource and service managers; the SyncQueue is a FIFO), the tester HTTP service,
activities other than as arbitrary functions (except the subflow activity), the resolvers of the core library, time and sleeps, OpResume on a loaded instance that was not restarted, the state recorder service behind its interface, races between single accesses to
memory in concurrent mode (goroutines interleave in pieces, see `Conc.v`), the Initialize, New and metadata parts of the on-demand action and its concurrent mode.

## 5. Findings

Behaviours of the code that contradict a property, found while modelling and proving. A theorem name means that the behaviour is
proved of the model, with a concrete flow as witness. The others were seen while reading and are part of the model, but no
theorem states them.

| property | what happens | where | theorem |
|---|---|---|---|
| C02 | a task that has a direct link from a start task and one through a skipped task is evaluated twice | `ind_instance.go:471-574` | `C02_refuted` |
| C03 | the same shape with other link conditions stalls: the flow never completes | `ind_instance.go:471-574` | `C03_refuted` |
| C07 | a flow is announced completed and, in the same step, failed: one skipped end task completes it, entering the next one panics | `ind_instance.go:509-558` | `C07_refuted` |
| C08 | a skipped end task completes a flow in which a task on a cycle is still entered | `flowbehavior.go:TaskDone` | `C08_refuted` |
| C08 | with concurrent execution a flow completes although the successor of a finished task has not been entered yet: a goroutine marks its task done, then another finishes and finds all tasks done; the successor is queued but never run | `ind_instance.go:471-573`, `flowbehavior.go:28-48` | `C08_concurrent_refuted` |
| C10 | an initial step id above the limit: the run neither steps nor delivers anything | `action.go` | `C10_refuted` |
| C12 | an error inside the error handler of the main flow: the flow fails with a nil error; this holds for every failed flow that has an error handler, unless an activity returned an error | `ind_instance.go:633-655` | `C12_refuted`, `C12_handler_run` |
| C16 | iterator and doWhile tasks whose activity waits (subflows) stall or stop after one element | `iteratorbehavior.go:154-174` | `C16_refuted`; for every flow `C16_repeat`, `C16_not_evaluated`, `C16_stalls` |
| C19 | outputs set in an earlier iteration stay in the output map of a looping task: an iteration that sets none is collected with those of the one before | `taskinst.go:114-127,592-606` | `C19_stale_refuted` |
| C20 | a subflow that completes without Return hands its host no outputs, although it declares some; with a flow event listener it does | `ind_instance.go:524-531` | `C20_refuted` |
| C21 | the error of a subflow is lost if another branch of the subflow finishes later (it clears the error and completes the subflow), and if it was given to Return | `ind_instance.go:524-531` | `C21_refuted` |
| C21 | the error handler of a subflow ends with an expression that fails, or with a panic: the task that started the subflow is never told, the run delivers no result and the main flow stays active | `ind_instance.go:403-422,666-672` | `C21_handler_refuted`, `C39_handling`, `C47_dropped` |
| C21 | two tasks of a subflow fail: the task that started it is queued twice. The first time it fails and its error link is followed; the second time it is evaluated again and starts the subflow again. The main flow may complete while that subflow is active, or the subflow is restarted until the step limit is reached | `ind_instance.go:427-433,631-651,700-714` | `C21_twice_refuted` |
| C22 | HandleGlobalError empties the task table of the main flow when a subflow handles an error | `ind_instance.go:684` | `C22_refuted` |
| C22 | the task table of the failed subflow itself is not emptied: a task of its error handler with the id of one of its other tasks shares that task's instance, the other task runs again and the successors of the handler task never run | `ind_instance.go:684`, `instance.go:83-101` | `C22_same_id_refuted` |
| C24 | names built from ids with dots collide | `taskinst.go:547-560`, `util.go` | `C24_refuted` |
| C26 | a subflow completed by Return while another of its tasks is queued: the saved instance cannot be loaded (panic) | `instance_ser.go` | `C26_refuted` |
| C27 | Restart rotates a queue of more than two items, reuses ids of work items, forgets that an error is being handled, panics with subflows | `ind_instance.go` Restart | `C27_*_refuted` |
| C28 | emptying the task table is not recorded | `ind_instance.go:684` | `C28_refuted` |
| C29 | older attribute values overwrite newer ones in StepsToSnapshot; removed tasks stay | `state/util.go` | `C29_refuted` |
| C30 | subflows and the queue are never part of a snapshot made from steps | `state/util.go` | `C30_refuted` |
| C31 | a listener or recorder freezes the return data at the first status change | `instance.go` GetReturnData | `C31_refuted` |
| C33 | with concurrent execution, entering a task that is skipped locks a mutex twice in one goroutine: deadlock | `ind_instance.go:722-726` | `C33_refuted` |
| C34 | with concurrent execution, a branch that enters a join after the join has run and been released creates a new instance of it that nothing schedules: the flow never completes | `ind_instance.go:721-751`, `instance.go:releaseTask` | `C34_refuted` |
| C36 | FLOGO_TASK_PROPAGATE_SKIP has no effect: a named result shadows the setting | `taskbehavior.go` Skip | `C36_refuted` |
| C37 | two links between the same tasks: the target is entered for each of them | `taskbehavior.go` Done | `C37_refuted` |
| C39 | a link expression that panics counts as false | `instance.go` EvalLink | `C39_refuted` |
| C40 | an error of a settings mapper while entering a task is only logged; the remaining tasks are not entered | `ind_instance.go:736-741` | `C40_refuted`; for start tasks of every flow `C40_start`, `C40_stalls` |
| C41 | a failing subflow records an additional step | `ind_instance.go:640, 700` | `C41_refuted` |
| C43 | an input that the task does not map is nil in the subflow, although the subflow declares a default (a flow run by itself gets the default) | `activity/subflow/activity.go:85-93`, `ind_instance.go:219-243` | `C43_refuted` |
| C45 | the event about the failure of the main flow has no error: the status is set before the error | `ind_instance.go:700-716`, `flowevents.go:109-111` | `C45_error_refuted` |
| C45 | the event about the completion of a flow reports only returned data that are also values of the flow; data given to Return are not | `flowevents.go:95-106` | `C45_outputs_refuted` |
| C45 | an input that is also an output with a default is not reported when the flow starts | `flowevents.go:97-103` | `C45_inputs_refuted` |
| C46 | a subflow whose error handler has tasks with the ids of tasks in the main section: after a link expression fails, the engine skips two tasks in turn without end (a stack overflow, which ends the process) | `ind_instance.go:721-751,471-574`, `instance.go:81-103` | `C46_refuted` |
| C47 | a panic while the error handler is started after another panic gets out of the step and ends the process (`execTask` has no second recover) | `ind_instance.go:401-424` | `C47_refuted` |
| C47 | a panic while the error handler is started after a failed activity is dropped ("else what should we do?"): the flow stays active, its caller gets no result | `ind_instance.go:416-422` | `C47_dropped_refuted` |
| C48 | with concurrent execution, resuming with inputs deadlocks: UpdateAttrs holds the lock of the flow and calls SetValue, which takes it | `instance.go:254-287` | `C48_refuted` |
| C49 | on-demand: a flow that fails with the last allowed step gives two results, the message about the limit and then its error (no return after the first) | `ondemand/action.go:253-265` | `C49_refuted` |
| C49 | on-demand: the first result carries the method `inst.ID` instead of its value | `ondemand/action.go:231` | `C49_id_refuted` |
| C49 | on-demand: the instance has no instance recorder, RecordState dereferences it when a subflow fails; the panic is dropped, the host task is never told, the caller gets no result | `ondemand/action.go:208`, `recorder.go:22-23`, `ind_instance.go:706` | `C49_subflow_refuted` |
| C49 | on-demand: for the same reason a panic in a subflow ends the process | `ind_instance.go:401-424,706` | `C49_panic_refuted` |
| C49 | on-demand: the error of the input mapper is ignored, the flow runs without inputs | `ondemand/action.go:290` | `C49_inputs_refuted` |
| C10 | with concurrent execution one task more than the limit is run (`>` instead of `>=`) | `ind_instance.go:347` | `C10_concurrent_refuted` |
| C50 | with concurrent execution the end of a flow that failed is told while tasks are still running: their activities are evaluated, and may reply, after handler.Done() | `ind_instance.go:342,355`, `action.go:363-443` | `C50_refuted` |
| C50 | DoStepInLoop takes a work item from the queue before it tests the step limit, and drops it when the limit is reached: the task is never run, not even if the instance is resumed | `ind_instance.go:344-349` | `C50_dropped_refuted` |
| C51 | a flow without tasks, or in which every task has an incoming link, is accepted and started and then stays active for ever; its caller gets no result | `flowbehavior.go:13-15,55-69`, `action.go:388-442` | `C51_no_start` |
| C51 | an error handler without tasks, or with no task to start with, is accepted; once it is started with no other work queued, the flow stays active for ever and the error is reported to nobody | `ind_instance.go:666-697` | `C51_handler` |
| C51 | a task that waits is scheduled only by the end of a subflow it started: an activity that reports "not done" for any other reason is never resumed, no call exists that wakes it up | `ind_instance.go:448-449,532,650,713` | `C51_never_woken` |
| C51 | the run of an acyclic flow with a shortcut past a skipped task returns without result while no task waits (as C03) | `ind_instance.go:471-573` | `C51_refuted` |
| C52 | of several otherwise links of a task only the last one is followed; an otherwise link of a task without expression link is never followed | `taskbehavior.go:242-246,285-296` | `C52_refuted` |
| C53 | the default of a declared output replaces the value an activity assigned to it | `instance.go:179-185` | `C53_refuted` |
| C54 | when a task that waited fails, errors that are not retriable are retried too: its subflow is started again | `taskbehavior.go:155-196` | `C54_post_refuted` |
| C54 | all rounds of a looping task share one budget of retries: a flow that survives a failure in either of two rounds fails if both rounds have one | `retry.go:24-53` | `C54_loop_refuted` |
| C55 | the queue is not cleared when the error handler starts ("should we clear out the existing workitem queue"): tasks queued at that time run, and so do all tasks that follow them | `ind_instance.go:681-691` | `C55_refuted` |
| C55 | a subflow that runs when the error handler starts is forgotten with the task table: the handler completes the flow and delivers the result while the subflow is active, its queued tasks are never run | `ind_instance.go:684`, `flowbehavior.go:28-48` | `C55_subflow_refuted` |

Seen while reading, without a theorem of their own:

* Completion is handled several times when several skipped end tasks are left (`ind_instance.go:509`).
* An interceptor without coverage record panics; a patch has no effect (`support/patch.go:59-66`).
* Recording switched on without a recorder: RecordState panics when a subflow fails, so its host is never scheduled.
* A flow that has replied and then completes delivers more than one result.
* An invalid recording mode makes Initialize return nil without initialising.
* Custom output mappings have no effect. A task without activity configuration panics when it is entered (`taskinst.go:54-56`).
* On-demand: the output mappings of the package are logged but never applied (`ondemand/action.go:192`).
* OpResume on an instance loaded from its saved form panics: only Restart initialises it (logger, definitions). A live instance can be resumed (C48).
* A failing doWhile condition leaves the outputs of its round collected.
* Events about failed tasks carry `returnError`, which is set only for tasks whose subflow failed (`taskevents.go:111-113`).
