{"id": "C01", "title": "An activity runs only after all its incoming links are decided", "statement": "In every run of a flow started through Start/DoStep, whenever the activity of a task is evaluated, every incoming link of that task had already been decided (false, true or skipped) by an earlier finished predecessor, and if the task has incoming links at least one of them had been decided true.", "quantifier": "every flow definition (cyclic or not), every activity/expression/mapper behaviour, every iteration order of the task maps, every number of steps", "why_tests_cant": "joins depend on the interleaving of all predecessors and on every combination of link outcomes; a test fixes one graph and one outcome vector", "anchors": ["model/simple/taskbehavior.go:TaskBehavior.Enter", "model/simple/taskbehavior.go:TaskBehavior.Done", "model/simple/taskbehavior.go:TaskBehavior.Skip", "model/simple/taskbehavior.go:TaskBehavior.Error", "instance/ind_instance.go:enterTasks", "instance/ind_instance.go:execTask"]}
{"id": "C02", "title": "At most one evaluation per task of a loop-free acyclic flow", "statement": "In a flow whose tasks and links form an acyclic graph with at most one link between any two tasks, and whose tasks are neither iterator nor doWhile nor retried, no run evaluates the activity of the same task twice.", "quantifier": "every such definition, every outcome of activities and link expressions, every run length", "why_tests_cant": "double evaluation can only be excluded by reasoning over all graph shapes and all skip cascades", "anchors": ["instance/ind_instance.go:enterTasks", "instance/ind_instance.go:scheduleEval", "instance/ind_instance.go:execTask", "instance/ind_instance.go:handleTaskDone", "instance/instance.go:releaseTask"]}
{"id": "C03", "title": "Every acyclic flow of synchronous activities runs to completion", "statement": "If the graph is acyclic without parallel links, has at least one task, activities finish synchronously, every activity that fails has an outgoing error link and no link expression errors, then stepping the instance reaches status Completed in at most as many steps as there are tasks, and at that point every task has been either evaluated exactly once or skipped (never both).", "quantifier": "every such definition, every order of map iteration, every outcome of every expression and activity", "why_tests_cant": "termination and completeness over all graphs and outcomes is an unbounded statement", "anchors": ["instance/ind_instance.go:DoStep", "instance/ind_instance.go:handleTaskDone", "instance/ind_instance.go:enterTasks", "model/simple/flowbehavior.go:TaskDone", "model/simple/taskbehavior.go:Enter"]}
{"id": "C04", "title": "Which tasks run is exactly determined by the followed links", "statement": "At completion of such a flow a task has been evaluated iff it is a start task or at least one incoming link was followed. A link is followed iff its source was evaluated and: dependency/label links on success; expression links when the expression was true on success; an otherwise link when the source has expression links none of which was true (the last otherwise link if several); error links iff the source failed. All other links of evaluated tasks are false and all links of skipped tasks are skipped.", "quantifier": "every definition, every outcome vector", "why_tests_cant": "the number of outcome vectors is exponential in the links and the graph is arbitrary", "anchors": ["model/simple/taskbehavior.go:Done", "model/simple/taskbehavior.go:Skip", "model/simple/taskbehavior.go:Error", "model/simple/taskbehavior.go:Enter"]}
{"id": "C05", "title": "Tasks on or behind a cycle never run", "statement": "A task that lies on a cycle of links, or can only be reached through one (some ancestor lies on a cycle), is never evaluated, skipped or failed in any run; it never becomes ready.", "quantifier": "every definition, every behaviour of activities, every run", "why_tests_cant": "it is a statement about all executions of all cyclic graphs", "anchors": ["model/simple/taskbehavior.go:Enter", "instance/ind_instance.go:enterTasks", "docs/model.md"]}
{"id": "C06", "title": "An unhandled activity error stops the flow and is reported", "statement": "If an activity of the main flow fails, its task has no error link and the flow has no error handler, the instance becomes Failed in that very step, no later step evaluates anything, and the error delivered to the result handler is that activity's error.", "quantifier": "every definition, every state reached so far (any queue content, any live subflows), every error", "why_tests_cant": "the remaining queue and subflow state at the moment of failure is arbitrary", "anchors": ["instance/ind_instance.go:handleTaskError", "instance/ind_instance.go:HandleGlobalError", "action.go:Run"]}
{"id": "C07", "title": "Completed and Failed are final for the instance", "statement": "After the instance status became Completed or Failed no step changes any task, link, attribute, status or queue entry nor evaluates anything; and over a whole run the status sequence of the main flow is NotStarted, Active, then only one kind of terminal status.", "quantifier": "every definition, every behaviour, every run length, every crash point in between", "why_tests_cant": "absence of any later effect is a property of all continuations", "anchors": ["instance/ind_instance.go:DoStep", "instance/ind_instance.go:handleTaskDone", "instance/ind_instance.go:HandleGlobalError", "action.go:Run"]}
{"id": "C08", "title": "Completed means nothing is left to do", "statement": "When the main flow becomes Completed without an explicit Return, no task of it is still entered, ready or waiting, and no queued work item of it could still evaluate an activity.", "quantifier": "every definition without error handler and without subflows failing in parallel, every run", "why_tests_cant": "depends on all orders in which branches finish and skips cascade", "anchors": ["model/simple/flowbehavior.go:TaskDone", "instance/ind_instance.go:handleTaskDone", "instance/ind_instance.go:enterTasks"]}
{"id": "C09", "title": "Work items are executed first in first out with unique increasing ids", "statement": "Work items are taken from the queue in exactly the order in which they were scheduled, each at most once, and their ids are 1,2,3,... in scheduling order over the whole life of a started instance.", "quantifier": "every definition, every behaviour, every run length", "why_tests_cant": "order and uniqueness over unbounded histories", "anchors": ["instance/ind_instance.go:scheduleEval", "instance/ind_instance.go:DoStep", "instance/ind_instance.go:NewWorkItem"]}
{"id": "C10", "title": "The step limit bounds every run", "statement": "Run always terminates its stepping loop; it executes at most FLOGO_MAX_STEP_COUNT steps (less the initial step offset on a restart), and when the limit stops a run that is not completed the result handler receives an error instead of a result.", "quantifier": "every definition, every behaviour including activities that loop forever, every limit, every initial step id", "why_tests_cant": "non-terminating flows cannot be exhausted by tests", "anchors": ["action.go:Run", "util/util.go:GetMaxStepCount"]}
{"id": "C11", "title": "Result delivery", "statement": "For every run that starts, the handler's Done is signalled exactly once; a run ending Completed delivers exactly one final result with the flow's return data and return error, a run ending Failed delivers exactly one final error result (two when a flow exception assertion is configured), a run cut by the limit exactly one error; a run that stops still Active delivers none. Replies and the instance-id reply are additional and precede the final one.", "quantifier": "every definition, behaviour, run option combination", "why_tests_cant": "exactly-once delivery must hold on all paths", "anchors": ["action.go:Run", "instance/instance.go:Reply", "instance/instance.go:GetReturnData"]}
{"id": "C12", "title": "A failed flow reports a non-nil error", "statement": "Whenever an instance ends with status Failed the error handed to the result handler is not nil.", "quantifier": "every definition with or without error handler, every behaviour", "why_tests_cant": "failure inside the error handler, link errors and panics are rarely combined in tests", "anchors": ["instance/ind_instance.go:handleTaskError", "instance/ind_instance.go:HandleGlobalError", "action.go:Run"]}
{"id": "C13", "title": "The error handler takes over on an unhandled error", "statement": "If a task of the main flow fails with an error its links do not handle and the flow has a non-empty error handler, the instance stays Active, exactly the start tasks of the error handler are scheduled behind the already queued work, the flow's task table holds only them, and $error (and $error of that task) describe the failing task and message.", "quantifier": "every definition with error handler, every state, every error", "why_tests_cant": "the state in which the error strikes is arbitrary", "anchors": ["instance/ind_instance.go:HandleGlobalError", "instance/taskinst.go:appendErrorData", "model/simple/flowbehavior.go:StartErrorHandler"]}
{"id": "C14", "title": "Return completes the flow immediately with the given data", "statement": "If an activity of the main flow calls Return(data, err) and finishes, the instance becomes Completed in that step, no other activity is evaluated afterwards, and the result handler receives exactly data and err.", "quantifier": "every definition, every state, every data", "why_tests_cant": "holds for every amount of other pending work", "anchors": ["instance/instance.go:Return", "instance/ind_instance.go:handleTaskDone", "action.go:Run"]}
{"id": "C15", "title": "A synchronous iterator visits every element once, in order", "statement": "An iterator task whose activity finishes synchronously evaluates the activity exactly once per element (array: elements in order; count n: 0..n-1, none if n<=0; object: every key once in some order) with index 0,1,2,...; then the task is done; an error in iteration k stops at k.", "quantifier": "every array, count, object, every activity outcome sequence", "why_tests_cant": "unbounded lengths and all positions of failure", "anchors": ["model/simple/iteratorbehavior.go:Eval", "model/simple/iteratorbehavior.go:NewIntIterator", "model/simple/iteratorbehavior.go:NewArrayIterator", "model/simple/iteratorbehavior.go:NewObjectIterator", "instance/ind_instance.go:execTask"]}
{"id": "C16", "title": "An iterator over an asynchronous activity or subflow visits every element", "statement": "An iterator or doWhile task whose activity waits (for example a subflow) resumes with the next iteration after each one finishes, until all iterations are done.", "quantifier": "every element list with two or more elements", "why_tests_cant": "requires running waiting activities through repeated scheduling; no test does", "anchors": ["model/simple/iteratorbehavior.go:PostEval", "model/simple/dowhilebehavior.go:PostEval", "instance/ind_instance.go:execTask"]}
{"id": "C17", "title": "doWhile runs at least once and stops when the condition turns false", "statement": "A doWhile task with synchronous activity evaluates its activity once for index 0 and again for every index i such that the condition was true at all indices below i; the condition of round i sees index i; without condition it runs exactly once.", "quantifier": "every condition sequence, every number of rounds", "why_tests_cant": "unbounded number of rounds", "anchors": ["model/simple/dowhilebehavior.go:Eval", "model/simple/dowhilebehavior.go:evaluateCondition", "model/simple/dowhilebehavior.go:updateDoWhileIndex"]}
{"id": "C18", "title": "Retry is bounded by the configured count", "statement": "With retryOnError count c, one evaluation of a task calls the activity at most c+1 times, retries only on retriable activity errors, stops at the first success, and returns the last error when the budget is used up; without configuration or for other errors there is exactly one call.", "quantifier": "every outcome sequence, every count (also negative)", "why_tests_cant": "all outcome sequences of arbitrary length", "anchors": ["model/simple/taskbehavior.go:evalActivity", "model/simple/retry.go:getRetryData", "model/simple/retry.go:retryEval"]}
{"id": "C19", "title": "Accumulate collects the outputs of all iterations in order", "statement": "With accumulate set, after n successful iterations the task's value in the flow scope is the list of the n output objects in iteration order appended to any list already there.", "quantifier": "every number of iterations, every output", "why_tests_cant": "unbounded iteration count", "anchors": ["instance/taskinst.go:handleAccumulation", "model/simple/iteratorbehavior.go:Eval"]}
{"id": "C20", "title": "A subflow hands its result to its host task and parents wait for it", "statement": "Subflow ids are unique and increasing over the life of an instance; a task that started a subflow and waits is only resumed by a work item scheduled when that subflow completes or fails; when it completes the host's outputs are the subflow's return data.", "quantifier": "every definition, nesting depth, behaviour, run", "why_tests_cant": "arbitrary nesting and interleaving", "anchors": ["instance/util.go:StartSubFlow", "instance/ind_instance.go:newEmbeddedInstance", "instance/ind_instance.go:handleTaskDone"]}
{"id": "C21", "title": "A failing subflow makes its host task fail", "statement": "If a subflow ends with an error that neither its links nor its error handler deal with, the host task fails with that error.", "quantifier": "every subflow definition and every order of its branches", "why_tests_cant": "needs a second branch that finishes after the failure", "anchors": ["instance/ind_instance.go:HandleGlobalError", "instance/ind_instance.go:handleTaskDone", "instance/taskinst.go:PostEvalActivity"]}
{"id": "C22", "title": "An error handled inside a subflow does not disturb the parent", "statement": "Running the error handler of a subflow leaves the parent's and other flows' task tables unchanged, and the parent does not complete while one of its own tasks is still pending. The error handler of a subflow runs the same tasks as that of a main flow.", "quantifier": "every parent/subflow pair and state", "why_tests_cant": "requires error handler in a subflow in parallel with pending parent tasks", "anchors": ["instance/ind_instance.go:HandleGlobalError"]}
{"id": "C23", "title": "Building a definition", "statement": "NewDefinition succeeds iff every task is valid and every link names existing tasks of its own section and expression links carry a valid expression; the resulting graph has exactly the given links, in order, with distinct ids 0..n-1 for the main section followed by the error handler's; the incoming and outgoing link lists of every task are exactly the links that name it; link types follow the documented names and numbers, unknown ones being dependencies.", "quantifier": "every representation", "why_tests_cant": "input space is unbounded", "anchors": ["definition/definition_ser.go:NewDefinition", "definition/definition_ser.go:createLink", "definition/definition_ser.go:createTask", "definition/definition.go"]}
{"id": "C24", "title": "Values of different activities and errors do not collide in the flow scope", "statement": "The flow-scope names of two different (task, output) pairs are different, and a task's accumulated value, its error object and flow-context values have names of their own.", "quantifier": "every pair of task ids and output names", "why_tests_cant": "string space is unbounded", "anchors": ["definition/mapper.go", "definition/resolve.go", "instance/taskinst.go:handleAccumulation", "instance/taskinst.go:setTaskError"]}
{"id": "C25", "title": "Successors are entered in the documented order", "statement": "After a task is done its successors are scheduled grouped as dependency, expression, otherwise, label links (label before expression links when expression priority is configured), skipped ones last, keeping the link order within a group.", "quantifier": "every task with any list of outgoing links and any outcomes", "why_tests_cant": "all lists of links", "anchors": ["model/simple/taskbehavior.go:getEnterCode", "model/simple/taskbehavior.go:SortTaskEntries", "model/simple/taskbehavior.go:Done"]}
{"id": "C26", "title": "Saving and loading an instance preserves its state", "statement": "Marshalling an instance and unmarshalling the result gives an instance with the same id, status, attributes, flow uri, task statuses, link statuses, queue items (id, task, subflow) and subflows; new subflow ids stay above all existing ones.", "quantifier": "every instance state", "why_tests_cant": "state space unbounded", "anchors": ["instance/instance_ser.go:MarshalJSON", "instance/instance_ser.go:UnmarshalJSON"]}
{"id": "C27", "title": "Restart resumes the saved work in the saved order", "statement": "Restarting a saved instance keeps the queue of work items in order, gives new work items ids different from the saved ones, and keeps handling errors as before the save.", "quantifier": "every saved state", "why_tests_cant": "needs queues of three or more entries and saves during error handling", "anchors": ["instance/ind_instance.go:Restart", "instance/ind_instance.go:init", "instance/instance_ser.go:UnmarshalJSON"]}
{"id": "C28", "title": "Recorded steps replay to the live state", "statement": "At every point of a run, replaying the recorded step changes in order over the empty state yields exactly the status and the live tasks and links with their statuses of every flow of the instance.", "quantifier": "every definition, behaviour, crash point", "why_tests_cant": "crash points and histories are unbounded", "anchors": ["instance/instance_chg.go:SimpleChangeTracker", "instance/recorder.go:RecordState", "instance/ind_instance.go:HandleGlobalError"]}
{"id": "C29", "title": "A snapshot rebuilt from steps shows the latest values", "statement": "StepsToSnapshot of the recorded steps gives the latest status and attribute values, only tasks and links that still exist, the pending work queue, and the subflows.", "quantifier": "every sequence of steps", "why_tests_cant": "unbounded histories; tests use single-step histories", "anchors": ["state/util.go:StepsToSnapshot", "state/util.go:UpdateFlow", "state/util.go:UpdateTasks", "state/util.go:UpdateQueue"]}
{"id": "C30", "title": "A snapshot contains everything needed to restart", "statement": "The snapshot of an instance contains the status, attributes, tasks and links of the main flow and of every live subflow, and the pending work queue.", "quantifier": "every instance state", "why_tests_cant": "needs live subflows", "anchors": ["instance/ind_instance.go:Snapshot", "instance/ind_instance.go:populateBaseSnapshot"]}
{"id": "C31", "title": "Observing a flow does not change its result", "statement": "Registering a state recorder or a flow event listener does not change the data a flow returns.", "quantifier": "every definition, behaviour and observer configuration", "why_tests_cant": "requires comparing pairs of runs over all flows", "anchors": ["instance/instance.go:GetReturnData", "instance/ind_instance.go:GetFlowState", "instance/flowevents.go:postFlowEvent", "action.go:Run"]}
{"id": "C32", "title": "Skipped and mocked activities are never executed", "statement": "If an interceptor marks a task as skip, or mocks its execution, no run ever calls that activity's Eval; a mocked activity's outputs are the interceptor's outputs; a mocked exception fails the task with the given message.", "quantifier": "every definition, interceptor, run, number of iterations", "why_tests_cant": "absence of a call over all runs", "anchors": ["instance/taskinst.go:EvalActivity", "instance/util.go:applyInputInterceptor", "instance/util.go:hasOutputInterceptor", "instance/util.go:applyOutputInterceptor"]}
{"id": "C33", "title": "Concurrent execution never blocks on its own lock", "statement": "With concurrent task execution enabled, processing a finished task never waits for a lock held by the same goroutine.", "quantifier": "every definition, every outcome", "why_tests_cant": "the blocking path needs a skipped task; schedules are unbounded", "anchors": ["instance/ind_instance.go:enterTasks", "instance/ind_instance.go:handleTaskDone", "instance/instance.go:UpdateAttrs"]}
{"id": "C34", "title": "Concurrent execution schedules each task instance at most once and completes joins", "statement": "With concurrent task execution enabled, in every interleaving each task instance is scheduled at most once by its predecessors and a join of two finished branches does not leave an unfinished task behind.", "quantifier": "every interleaving of any number of goroutines", "why_tests_cant": "schedules cannot be enumerated by tests", "anchors": ["instance/ind_instance.go:enterTasks", "instance/ind_instance.go:DoStepInLoop", "instance/instance.go:FindOrCreateTaskInst", "instance/instance.go:releaseTask"]}
{"id": "C35", "title": "The flow manager loads each flow once", "statement": "For each flow URI the provider is consulted until it first succeeds and never afterwards; all later lookups return that same definition; failures are not remembered; lookups of different URIs do not interfere.", "quantifier": "every sequence of lookups and provider answers", "why_tests_cant": "unbounded histories", "anchors": ["support/manager.go:GetFlow"]}
{"id": "C36", "title": "The skip propagation setting takes effect", "statement": "Turning FLOGO_TASK_PROPAGATE_SKIP on changes how skipped branches are processed.", "quantifier": "both values of the setting, every definition", "why_tests_cant": "a claim about all flows", "anchors": ["model/simple/taskbehavior.go:Skip", "support/env.go:GetPropagateSkip", "instance/ind_instance.go:propagateSkip"]}
{"id": "C37", "title": "Two links between the same tasks behave like one", "statement": "A flow in which two tasks are connected by more than one link still completes and runs the target at most once.", "quantifier": "every acyclic definition with parallel links, every outcome", "why_tests_cant": "outcome combinations", "anchors": ["instance/ind_instance.go:enterTasks", "instance/ind_instance.go:handleTaskDone", "instance/instance.go:releaseTask"]}
{"id": "C38", "title": "Flow data is isolated between flows of one instance", "statement": "Executing a task of one flow changes attributes of no other flow of the instance; values cross only as subflow inputs at its start and as outputs of its host task.", "quantifier": "every definition, nesting, behaviour, step", "why_tests_cant": "non-interference over all runs", "anchors": ["instance/instance.go:SetValue", "instance/util.go:applyOutputMapper", "instance/util.go:StartSubFlow"]}
{"id": "C39", "title": "An expression that panics is reported as an error", "statement": "If evaluating a link expression fails in any way, including a panic, the flow handles it as an error rather than following another branch.", "quantifier": "every link and expression behaviour", "why_tests_cant": "panicking expressions are not in the tests", "anchors": ["instance/taskinst.go:EvalLink", "model/simple/taskbehavior.go:Done"]}
{"id": "C40", "title": "An error while entering a task is reported", "statement": "If resolving a task's settings fails when it is entered, the flow fails or its error handler runs.", "quantifier": "every definition and state", "why_tests_cant": "mapper failures at entry are not tested", "anchors": ["instance/ind_instance.go:enterTasks", "instance/ind_instance.go:startInstance", "instance/util.go:applySettingsMapper"]}
{"id": "C41", "title": "Recording modes", "statement": "Only the documented recording mode names are accepted, in any letter case; steps are recorded exactly in step, full and debugger modes and snapshots exactly in snapshot and full modes; and a run with step recording records exactly one step per executed engine step with consecutive step ids.", "quantifier": "every mode value, every run", "why_tests_cant": "all runs and inputs", "anchors": ["state/status.go:ToRecordingMode", "state/status.go:RecordSteps", "state/status.go:RecordSnapshot", "instance/recorder.go:RecordState", "instance/instance_chg.go:ExtractStep"]}
{"id": "C42", "title": "Task events follow the task life cycle", "statement": "For every task instance the published statuses start with Entered, an evaluation is preceded by Ready, and nothing but Done/Skipped/Failed-equal repetitions follows a final status of a released basic task.", "quantifier": "every definition, behaviour, run", "why_tests_cant": "all traces", "anchors": ["instance/taskinst.go:SetStatus", "instance/taskevents.go:postTaskEvent", "model/simple/taskbehavior.go:Enter"]}
{"id": "C43", "title": "A subflow gets the inputs its task maps", "statement": "When a task starts a subflow, a reference to an input that the subflow declares stands for the value the task maps to it for the whole life of the subflow, an input that is not mapped has its declared default, and an input that is not declared is not passed; a subflow that cannot be found makes the task fail with an error saying so.", "quantifier": "every subflow definition, input mapping and continuation of the run", "why_tests_cant": "values must survive all later steps of all flows", "anchors": ["activity/subflow/activity.go:Eval", "instance/util.go:StartSubFlow", "instance/ind_instance.go:startInstance", "instance/taskinst.go:GetInput"]}
{"id": "C44", "title": "References stand for what they name", "statement": "In every state of every run: $flow.x stands for the input x of the flow or its default, $flowctx[...] for name and id of the flow and the application, $activity[a].o for output o of the last evaluation of task a, and $error in the error handler for an object describing the error.", "quantifier": "every definition, run and task that resolves a reference", "why_tests_cant": "requires that no other task, flow or error in any order of execution overwrites the value under the same name", "anchors": ["definition/resolve.go:Resolve", "instance/scopes.go:GetValue", "instance/instance.go:GetValue", "instance/ind_instance.go:startInstance"]}
{"id": "C45", "title": "A listener is told what happens to flows", "statement": "A listener for flow events gets exactly one event for each status change of each flow, in the order of the changes, with the values of the flow at that time: a starting flow with its inputs, a completed flow with the data it returns, a failed flow with its error; without a listener nothing is posted.", "quantifier": "every definition, run, nesting of subflows and schedule of concurrent tasks", "why_tests_cant": "the events of all flows in all runs, and the values at the moment of each change", "anchors": ["instance/flowevents.go:postFlowEvent", "instance/instance.go:SetStatus", "instance/ind_instance.go:HandleGlobalError"]}
{"id": "C46", "title": "Every step of the engine ends", "statement": "Provided the activities and expressions it calls end, a step of the engine and a whole run with its step limit end: tasks are not skipped forever one because of the other, a task is not retried forever, and the engine waits for no lock as long as tasks are not evaluated concurrently.", "quantifier": "every definition (also with cycles), environment and reachable state", "why_tests_cant": "a test that hangs shows nothing about the flows that were not tried; the claim needs a measure over all graphs", "anchors": ["instance/ind_instance.go:enterTasks", "instance/ind_instance.go:handleTaskDone", "model/simple/retry.go:retryEval", "model/simple/taskbehavior.go:evalActivity"]}
{"id": "C47", "title": "A panic while a task is evaluated does not crash the engine", "statement": "Whatever panics while a task is evaluated (an activity, a mapper, an expression, a type assertion of the engine), a step of the engine returns normally and the panic is handled like an error: the error handler of the flow starts or the flow fails. A run started on one goroutine always ends normally.", "quantifier": "every definition, environment (which call panics, when and how often), nesting of subflows and reachable state", "why_tests_cant": "the places a panic can come from, and the states they can leave behind, cannot be enumerated by tests", "anchors": ["instance/ind_instance.go:execTask", "instance/ind_instance.go:HandleGlobalError", "instance/ind_instance.go:DoStep", "action.go:Run"]}
{"id": "C48", "title": "A stopped run can be resumed", "statement": "A run that was stopped by the step limit while there was work to do and is then resumed continues as if it had not been stopped: outcome, final state, activities evaluated and results are those of one run with as many steps as both together.", "quantifier": "every definition, environment, step limits and options of both runs", "why_tests_cant": "all points at which a run can be stopped, in all runs, and the whole state afterwards", "anchors": ["action.go:Run", "instance/instance.go:UpdateAttrs", "instance/ind_instance.go:DoStep"]}
{"id": "C49", "title": "An on-demand run does what a run of the flow action does", "statement": "A flow that comes with the request is run like a flow that was deployed: same activities, status changes and end of the flow, the same results in the same number, the inputs of the request reach the flow or the request fails, and errors of subflows reach the main flow.", "quantifier": "every definition, environment, inputs and step limit", "why_tests_cant": "two separate implementations of the run loop have to be compared on all flows and all ways to fail", "anchors": ["ondemand/action.go:Run", "ondemand/action.go:ApplyMappings", "instance/recorder.go:RecordState"]}
{"id": "C50", "title": "With concurrent task execution a run ends once and for good", "statement": "With concurrent task execution the caller is told the end of a run exactly once and gets the result that belongs to the state of the flow at that moment; afterwards no activity of the flow is evaluated and no further result is given, and a run that is stopped by the step limit keeps the work it has not done.", "quantifier": "every definition, environment, inputs, step limit and interleaving of the loop and the goroutines of the tasks", "why_tests_cant": "the interleavings cannot be chosen by a test, and the end of the loop may fall between any two pieces of any goroutine", "anchors": ["instance/ind_instance.go:DoStepInLoop", "action.go:Run"]}
{"id": "C51", "title": "A run without a result waits for somebody", "statement": "A run that returns although the flow has neither completed nor failed and the step limit was not reached has done all queued work, and there is a task whose activity waits to be resumed; every task that has not ended comes after such a task. In other words: a flow never hangs with nothing that could wake it up.", "quantifier": "every definition, environment, inputs, options and run", "why_tests_cant": "that nothing is left that could wake a flow up is a statement about all later executions; tests see a run that has not finished yet", "anchors": ["action.go:Run", "instance/ind_instance.go:DoStep", "instance/ind_instance.go:enterTasks", "model/simple/flowbehavior.go:TaskDone"]}
{"id": "C52", "title": "A branch with an otherwise link leads somewhere", "statement": "When a task that has otherwise links is done, either the expression of one of its expression links holds and the task behind that link is entered, or the tasks behind its otherwise links are entered.", "quantifier": "every definition, environment, inputs and reachable state in which an evaluation finishes a task", "why_tests_cant": "the number and order of links of a task and the values of their expressions are unbounded; tests fix a few", "anchors": ["model/simple/taskbehavior.go:Done"]}
{"id": "C53", "title": "A completed flow delivers the last values of its outputs", "statement": "When a flow with declared outputs completes and no activity replied or returned, exactly one result is delivered: for each declared output the value last assigned to the attribute of that name, or its default if there was none, and nothing else.", "quantifier": "every definition with output metadata, environment, inputs, options and completed run", "why_tests_cant": "which activity assigned an output last depends on the whole execution; tests check few outputs, mostly without defaults", "anchors": ["instance/instance.go:GetReturnData", "action.go:Run"]}
{"id": "C54", "title": "Retries are made for retriable errors, in every round", "statement": "The activity of a task with retries is called again only after an error that is marked as retriable, also when the task waited; and each round of a looping task may use the configured number of retries.", "quantifier": "every definition, environment, inputs, reachable state and evaluation of a task with retries", "why_tests_cant": "retries combine with loops, waiting and subflows in unboundedly many ways; tests cover the retry of one synchronous call", "anchors": ["model/simple/taskbehavior.go:evalActivity", "model/simple/taskbehavior.go:PostEval", "model/simple/retry.go:getRetryData"]}
{"id": "C55", "title": "Once the error handler has taken over, nothing else of the flow runs", "statement": "After an unhandled error has started the error handler of a flow, only tasks of the error handler are evaluated in that flow, and when the handler has ended nothing the flow started is left unfinished.", "quantifier": "every definition with error handler, environment, inputs and reachable state in which the error handler has taken over, and every later state", "why_tests_cant": "what is queued or running when the error strikes is arbitrary, and the claim is about all later states", "anchors": ["instance/ind_instance.go:HandleGlobalError", "instance/ind_instance.go:enterTasks", "instance/ind_instance.go:handleTaskDone"]}
