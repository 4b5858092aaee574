(** Run-time state of the engine, the environment it runs in, and the state monad.
    Models the data of /repo/instance/instance.go, taskinst.go, linkinst.go, ind_instance.go. *)
From Verif Require Export FlowDef.
From stdpp Require Export pretty.

(** The iterators of /repo/model/simple/iteratorbehavior.go:207-359: array (and reflect) iterator,
    int iterator, object iterator (its keyMap is the list order). [cur] starts at -1. *)
Inductive iter :=
  | ItArr (cur : Z) (l : list val)
  | ItInt (cur : Z) (count : Z)
  | ItObj (cur : Z) (l : list (string * val)).

(** Values of the working data of a task instance, /repo/instance/scopes.go:9-12:
    "_iterator" and "iteration" of the iterator (/repo/model/simple/iteratorbehavior.go:102-111),
    "iteration" of doWhile (/repo/model/simple/dowhilebehavior.go:19-21),
    "_retryOnErrorAttr" (/repo/model/simple/retry.go:18-21). *)
Inductive wval :=
  | WIter (it : iter)
  | WIteration (key value : val) (index : Z)
  | WDoWhile (index : Z)
  | WRetry (count interval : Z).

(** TaskInst, /repo/instance/taskinst.go:60-83. [ti_inst] is the flow instance it belongs to (its
    subflow id). inputs/outputs/settings: nil and empty maps are identified (all reads treat them
    alike). Dropped: id/counter (tracing only), logger, traceContext, asyncExec (never read). *)
Record tinst := mk_tinst {
  ti_inst : nat;
  ti_task : task;
  ti_status : Z;
  ti_wd : gmap string wval;
  ti_in : vmap;
  ti_out : vmap;
  ti_set : vmap;
  ti_rerr : option err;
  ti_sched : bool
}.

(** Instance, /repo/instance/instance.go:16-46. [i_host]: the task instance that started this
    subflow (heap index). [i_tasks]: task id to heap index, taskInsts. [i_links]: link id to link
    status, linkInsts. [i_handler]: a result handler is set. Locks are modelled by [s_lock]. *)
Record inst := mk_inst {
  i_host : option nat;
  i_handling : bool;
  i_status : Z;
  i_def : defn;
  i_uri : string;
  i_tasks : gmap string nat;
  i_links : gmap nat Z;
  i_force : bool;
  i_rdata : option vmap;
  i_rerr : option err;
  i_attrs : vmap;
  i_handler : bool
}.

(** SnapshotBase, /repo/state/snapshot.go. *)
Record snap_base := mk_sb {
  sb_uri : string;
  sb_status : Z;
  sb_attrs : vmap;
  sb_tasks : gmap string Z;
  sb_links : gmap nat Z
}.

(** Snapshot with its subflows (id, host task id, base) and queue (id, task id, subflow id),
    /repo/state/snapshot.go. *)
Record snapshot := mk_snap {
  sn_base : snap_base;
  sn_subs : list (nat * string * snap_base);
  sn_queue : list (nat * string * nat)
}.

(** How an assertion of the unit-testing interceptor ended,
    /repo/support/interceptor.go:18-24. *)
Inductive asrt_res := ARNotExecuted | ARPass | ARFail | ARAssertionNotExecuted.

(** What can be observed from outside while the engine runs. The arguments name the flow instance
    by its subflow id, tasks by id, links by id.
    - change tracker calls, /repo/instance/instance_chg.go:17-48 (and the task/flow events posted
      with the status changes, /repo/instance/taskinst.go:175-179, instance.go:201-209);
    - calls of external code: activity Eval/PostEval, link expressions;
    - results given to the caller, recorder calls, coverage. *)
Inductive event :=
  | EvFlowCreated                                        (* ind_instance.go:79,894 *)
  | EvFlowStatus (i : nat) (s : Z)                       (* instance.go:206-208 *)
  | EvFlowEvent (i : nat) (s : Z) (ins outs : vmap) (e : option err) (* flowevents.go:69-114, what a listener gets *)
  | EvFlowDone                                           (* ind_instance.go:557 *)
  | EvSubCreated (i : nat) (uri : string) (pi : nat) (host : string) (* ind_instance.go:129 *)
  | EvSubDone (i : nat)                                  (* ind_instance.go:531 *)
  | EvSet (i : nat) (m : vmap) (tracked : bool)          (* instance.go:264-268, ind_instance.go:226-243 *)
  | EvTaskAdd (i : nat) (id : string)                    (* instance.go:96 *)
  | EvTaskUpd (i : nat) (id : string) (s : Z)            (* taskinst.go:175-179 *)
  | EvTaskTrk (i : nat) (id : string) (s : Z)            (* taskinst.go:182-184 *)
  | EvTaskDel (i : nat) (id : string)                    (* instance.go:128-129 *)
  | EvTasksClear (i : nat)                               (* ind_instance.go:684 *)
  | EvLinkAdd (i : nat) (l : nat)                        (* instance.go:116 *)
  | EvLinkSet (i : nat) (l : nat) (s : Z)                (* linkinst.go:37, the assignment *)
  | EvLinkUpd (i : nat) (l : nat) (s : Z)                (* linkinst.go:36-43 *)
  | EvLinkDel (i : nat) (l : nat)                        (* instance.go:133-134 *)
  | EvQAdd (w : nat) (i : nat) (id : string)             (* ind_instance.go:394-397 *)
  | EvQDel (w : nat) (i : nat) (id : string)             (* ind_instance.go:324,379 *)
  | EvAct (i : nat) (id : string) (ins : vmap) (it : option wval) (* taskinst.go:369, activity Eval called,
                                                            with these inputs and $iteration *)
  | EvActEnd (i : nat) (id : string) (e : option err)    (* it returned: without / with this error *)
  | EvPost (i : nat) (id : string)                       (* taskinst.go:489 *)
  | EvLinkEval (i : nat) (l : nat) (r : bool)            (* taskinst.go:267-290 *)
  | EvCond (i : nat) (id : string) (it : option wval) (v : val) (* dowhilebehavior.go:80-87, the condition
                                                            gave [v] seeing this $iteration *)
  | EvReturn (i : nat) (d : option vmap) (e : option err) (* instance.go:154-158, Return called *)
  | EvResult (d : option vmap) (e : option err)          (* HandleResult *)
  | EvSnapshot (sn : snapshot)                           (* recorder.go:24 *)
  | EvStep                                               (* recorder.go:31-35 *)
  | EvSkipStep                                           (* action.go:354 CurrentStep(true) *)
  | EvRecStart                                           (* action.go:310 *)
  | EvRecDone                                            (* action.go:441 *)
  | EvHandlerDone                                        (* action.go:361,363 *)
  | EvIcpt (id : string) (r : Z)                         (* util.go:276-288 *)
  | EvAssert (id : string) (k : nat) (r : asrt_res)      (* util.go:139-170 *)
  | EvCov (i : nat) (id : string).                       (* ind_instance.go:789, linkinst.go:73 *)

(** IndependentInstance, /repo/instance/ind_instance.go:22-42, with the heap of flow instances
    (0 is the independent instance itself, n > 0 the embedded instance with subflow id n; entries
    are never removed, unlike [s_subs] which is the Go map [subflows]), the heap of task
    instances, the number of external calls made so far ([s_tick]), whether actSchedLock is held
    ([s_lock]) and the log of observable events, newest first ([s_log]).
    [s_queue]: work items (id, task instance). *)
Record st := mk_st {
  s_insts : gmap nat inst;
  s_tis : gmap nat tinst;
  s_nti : nat;
  s_queue : list (nat * nat);
  s_wictr : nat;
  s_sfctr : nat;
  s_subs : gset nat;
  s_step : nat;
  s_tick : nat;
  s_lock : bool;
  s_log : list event
}.

(** Field updates of [tinst] (assignments to the Go struct, /repo/instance/taskinst.go:60-83). *)
Definition set_ti_inst (x : nat) (r : tinst) : tinst :=
  mk_tinst x (ti_task r) (ti_status r) (ti_wd r) (ti_in r) (ti_out r) (ti_set r) (ti_rerr r) (ti_sched r).
(** Assignment to the field [ti_task], /repo/instance/taskinst.go:62. *)
Definition set_ti_task (x : task) (r : tinst) : tinst :=
  mk_tinst (ti_inst r) x (ti_status r) (ti_wd r) (ti_in r) (ti_out r) (ti_set r) (ti_rerr r) (ti_sched r).
(** Assignment to the field [ti_status], /repo/instance/taskinst.go:63. *)
Definition set_ti_status (x : Z) (r : tinst) : tinst :=
  mk_tinst (ti_inst r) (ti_task r) x (ti_wd r) (ti_in r) (ti_out r) (ti_set r) (ti_rerr r) (ti_sched r).
(** Assignment to the field [ti_wd], /repo/instance/taskinst.go:67. *)
Definition set_ti_wd (x : gmap string wval) (r : tinst) : tinst :=
  mk_tinst (ti_inst r) (ti_task r) (ti_status r) x (ti_in r) (ti_out r) (ti_set r) (ti_rerr r) (ti_sched r).
(** Assignment to the field [ti_in], /repo/instance/taskinst.go:69. *)
Definition set_ti_in (x : vmap) (r : tinst) : tinst :=
  mk_tinst (ti_inst r) (ti_task r) (ti_status r) (ti_wd r) x (ti_out r) (ti_set r) (ti_rerr r) (ti_sched r).
(** Assignment to the field [ti_out], /repo/instance/taskinst.go:70. *)
Definition set_ti_out (x : vmap) (r : tinst) : tinst :=
  mk_tinst (ti_inst r) (ti_task r) (ti_status r) (ti_wd r) (ti_in r) x (ti_set r) (ti_rerr r) (ti_sched r).
(** Assignment to the field [ti_set], /repo/instance/taskinst.go:71. *)
Definition set_ti_set (x : vmap) (r : tinst) : tinst :=
  mk_tinst (ti_inst r) (ti_task r) (ti_status r) (ti_wd r) (ti_in r) (ti_out r) x (ti_rerr r) (ti_sched r).
(** Assignment to the field [ti_rerr], /repo/instance/taskinst.go:74. *)
Definition set_ti_rerr (x : option err) (r : tinst) : tinst :=
  mk_tinst (ti_inst r) (ti_task r) (ti_status r) (ti_wd r) (ti_in r) (ti_out r) (ti_set r) x (ti_sched r).
(** Assignment to the field [ti_sched], /repo/instance/taskinst.go:80. *)
Definition set_ti_sched (x : bool) (r : tinst) : tinst :=
  mk_tinst (ti_inst r) (ti_task r) (ti_status r) (ti_wd r) (ti_in r) (ti_out r) (ti_set r) (ti_rerr r) x.

(** Field updates of [inst] (assignments to the Go struct, /repo/instance/instance.go:16-46). *)
Definition set_i_host (x : option nat) (r : inst) : inst :=
  mk_inst x (i_handling r) (i_status r) (i_def r) (i_uri r) (i_tasks r) (i_links r) (i_force r) (i_rdata r) (i_rerr r) (i_attrs r) (i_handler r).
(** Assignment to the field [i_handling], /repo/instance/instance.go:22. *)
Definition set_i_handling (x : bool) (r : inst) : inst :=
  mk_inst (i_host r) x (i_status r) (i_def r) (i_uri r) (i_tasks r) (i_links r) (i_force r) (i_rdata r) (i_rerr r) (i_attrs r) (i_handler r).
(** Assignment to the field [i_status], /repo/instance/instance.go:24. *)
Definition set_i_status (x : Z) (r : inst) : inst :=
  mk_inst (i_host r) (i_handling r) x (i_def r) (i_uri r) (i_tasks r) (i_links r) (i_force r) (i_rdata r) (i_rerr r) (i_attrs r) (i_handler r).
(** Assignment to the field [i_def], /repo/instance/instance.go:25. *)
Definition set_i_def (x : defn) (r : inst) : inst :=
  mk_inst (i_host r) (i_handling r) (i_status r) x (i_uri r) (i_tasks r) (i_links r) (i_force r) (i_rdata r) (i_rerr r) (i_attrs r) (i_handler r).
(** Assignment to the field [i_uri], /repo/instance/instance.go:26. *)
Definition set_i_uri (x : string) (r : inst) : inst :=
  mk_inst (i_host r) (i_handling r) (i_status r) (i_def r) x (i_tasks r) (i_links r) (i_force r) (i_rdata r) (i_rerr r) (i_attrs r) (i_handler r).
(** Assignment to the field [i_tasks], /repo/instance/instance.go:28. *)
Definition set_i_tasks (x : gmap string nat) (r : inst) : inst :=
  mk_inst (i_host r) (i_handling r) (i_status r) (i_def r) (i_uri r) x (i_links r) (i_force r) (i_rdata r) (i_rerr r) (i_attrs r) (i_handler r).
(** Assignment to the field [i_links], /repo/instance/instance.go:29. *)
Definition set_i_links (x : gmap nat Z) (r : inst) : inst :=
  mk_inst (i_host r) (i_handling r) (i_status r) (i_def r) (i_uri r) (i_tasks r) x (i_force r) (i_rdata r) (i_rerr r) (i_attrs r) (i_handler r).
(** Assignment to the field [i_force], /repo/instance/instance.go:31. *)
Definition set_i_force (x : bool) (r : inst) : inst :=
  mk_inst (i_host r) (i_handling r) (i_status r) (i_def r) (i_uri r) (i_tasks r) (i_links r) x (i_rdata r) (i_rerr r) (i_attrs r) (i_handler r).
(** Assignment to the field [i_rdata], /repo/instance/instance.go:32. *)
Definition set_i_rdata (x : option vmap) (r : inst) : inst :=
  mk_inst (i_host r) (i_handling r) (i_status r) (i_def r) (i_uri r) (i_tasks r) (i_links r) (i_force r) x (i_rerr r) (i_attrs r) (i_handler r).
(** Assignment to the field [i_rerr], /repo/instance/instance.go:33. *)
Definition set_i_rerr (x : option err) (r : inst) : inst :=
  mk_inst (i_host r) (i_handling r) (i_status r) (i_def r) (i_uri r) (i_tasks r) (i_links r) (i_force r) (i_rdata r) x (i_attrs r) (i_handler r).
(** Assignment to the field [i_attrs], /repo/instance/instance.go:35. *)
Definition set_i_attrs (x : vmap) (r : inst) : inst :=
  mk_inst (i_host r) (i_handling r) (i_status r) (i_def r) (i_uri r) (i_tasks r) (i_links r) (i_force r) (i_rdata r) (i_rerr r) x (i_handler r).
(** Assignment to the field [i_handler], /repo/instance/instance.go:38. *)
Definition set_i_handler (x : bool) (r : inst) : inst :=
  mk_inst (i_host r) (i_handling r) (i_status r) (i_def r) (i_uri r) (i_tasks r) (i_links r) (i_force r) (i_rdata r) (i_rerr r) (i_attrs r) x.

(** Field updates of [st] (assignments to the Go struct, /repo/instance/ind_instance.go:22-42). *)
Definition set_s_insts (x : gmap nat inst) (r : st) : st :=
  mk_st x (s_tis r) (s_nti r) (s_queue r) (s_wictr r) (s_sfctr r) (s_subs r) (s_step r) (s_tick r) (s_lock r) (s_log r).
(** Assignment to the field [s_tis], the TaskInst objects of /repo/instance/taskinst.go:60-83. *)
Definition set_s_tis (x : gmap nat tinst) (r : st) : st :=
  mk_st (s_insts r) x (s_nti r) (s_queue r) (s_wictr r) (s_sfctr r) (s_subs r) (s_step r) (s_tick r) (s_lock r) (s_log r).
(** Assignment to the field [s_nti], allocation of a TaskInst, /repo/instance/taskinst.go:23-58 (model infrastructure). *)
Definition set_s_nti (x : nat) (r : st) : st :=
  mk_st (s_insts r) (s_tis r) x (s_queue r) (s_wictr r) (s_sfctr r) (s_subs r) (s_step r) (s_tick r) (s_lock r) (s_log r).
(** Assignment to the field [s_queue], /repo/instance/ind_instance.go:27. *)
Definition set_s_queue (x : list (nat * nat)) (r : st) : st :=
  mk_st (s_insts r) (s_tis r) (s_nti r) x (s_wictr r) (s_sfctr r) (s_subs r) (s_step r) (s_tick r) (s_lock r) (s_log r).
(** Assignment to the field [s_wictr], /repo/instance/ind_instance.go:28. *)
Definition set_s_wictr (x : nat) (r : st) : st :=
  mk_st (s_insts r) (s_tis r) (s_nti r) (s_queue r) x (s_sfctr r) (s_subs r) (s_step r) (s_tick r) (s_lock r) (s_log r).
(** Assignment to the field [s_sfctr], /repo/instance/ind_instance.go:37. *)
Definition set_s_sfctr (x : nat) (r : st) : st :=
  mk_st (s_insts r) (s_tis r) (s_nti r) (s_queue r) (s_wictr r) x (s_subs r) (s_step r) (s_tick r) (s_lock r) (s_log r).
(** Assignment to the field [s_subs], /repo/instance/ind_instance.go:38. *)
Definition set_s_subs (x : gset nat) (r : st) : st :=
  mk_st (s_insts r) (s_tis r) (s_nti r) (s_queue r) (s_wictr r) (s_sfctr r) x (s_step r) (s_tick r) (s_lock r) (s_log r).
(** Assignment to the field [s_step], /repo/instance/ind_instance.go:26. *)
Definition set_s_step (x : nat) (r : st) : st :=
  mk_st (s_insts r) (s_tis r) (s_nti r) (s_queue r) (s_wictr r) (s_sfctr r) (s_subs r) x (s_tick r) (s_lock r) (s_log r).
(** Assignment to the field [s_tick], the number of external calls (model infrastructure, see [env]). *)
Definition set_s_tick (x : nat) (r : st) : st :=
  mk_st (s_insts r) (s_tis r) (s_nti r) (s_queue r) (s_wictr r) (s_sfctr r) (s_subs r) (s_step r) x (s_lock r) (s_log r).
(** Assignment to the field [s_lock], actSchedLock, /repo/instance/instance.go:43. *)
Definition set_s_lock (x : bool) (r : st) : st :=
  mk_st (s_insts r) (s_tis r) (s_nti r) (s_queue r) (s_wictr r) (s_sfctr r) (s_subs r) (s_step r) (s_tick r) x (s_log r).
(** Assignment to the field [s_log], the events (see [event]). *)
Definition set_s_log (x : list event) (r : st) : st :=
  mk_st (s_insts r) (s_tis r) (s_nti r) (s_queue r) (s_wictr r) (s_sfctr r) (s_subs r) (s_step r) (s_tick r) (s_lock r) x.

(** ** The environment *)

(** What external code can look at when it is called for a task instance: the flow instance and
    task it runs in, the attributes of that flow instance (its scope, instance.go:237-252), the
    task's inputs, outputs, working data and settings. *)
Record view := mk_view {
  v_inst : nat;
  v_task : string;
  v_attrs : vmap;
  v_in : vmap;
  v_out : vmap;
  v_wd : gmap string wval;
  v_set : vmap
}.

(** How an activity call ends: done, not done (wait), error, or panic (the results handled at
    /repo/instance/taskinst.go:369-395,446). *)
Inductive act_end := ADone | AWait | AErr (e : err) | APanic (m : string).

(** The calls an activity makes on its context before it ends, activity.Context and activity.Host:
    SetOutput (taskinst.go:114-127), SetOutputObject (147-150), Scope().SetValue
    (instance.go:254-271), Reply (147-152), Return (154-158) and StartSubFlow (util.go:353-381,
    the two continuations tell whether it returned an error). *)
Inductive act :=
  | AEnd (r : act_end)
  | AOut (n : string) (v : val) (k : act)
  | AOuts (m : vmap) (k : act)
  | AScope (n : string) (v : val) (k : act)
  | AReply (d : option vmap) (e : option err) (k : act)
  | AReturn (d : option vmap) (e : option err) (k : act)
  | AStart (uri : string) (ins : vmap) (kerr kok : act).

(** Result of an external call that yields a value, fails or panics (expressions, mappers; e.g.
    /repo/instance/taskinst.go:267-290). *)
Inductive xres (A : Type) := XOk (a : A) | XErr (e : err) | XPanic (m : string).
Arguments XOk {A} a.
Arguments XErr {A} e.
Arguments XPanic {A} m.

(** GetDefinition, /repo/support/definition.go:19-45: a definition, nil, or an error. *)
Inductive def_res := DOk (d : defn) | DNil | DErr (e : err).

(** Assertion of a TaskInterceptor, /repo/support/interceptor.go:84-92: is the expression empty,
    and its type (1 = Primitive). *)
Record asrt := mk_asrt { as_empty : bool; as_type : Z }.

(** TaskInterceptor, /repo/support/interceptor.go:72-82 (Result and Message are outputs and appear
    as events). *)
Record ticpt := mk_ticpt {
  tc_skip : bool;
  tc_in : vmap;
  tc_out : vmap;
  tc_asserts : list asrt;
  tc_skipexec : bool;
  tc_type : Z
}.

(** Interceptor, /repo/support/interceptor.go:30-36: tasks by id, whether a Coverage object is
    present, CollectIO. *)
Record icpt := mk_icpt {
  ic_tasks : gmap string ticpt;
  ic_cov : bool;
  ic_collect : bool
}.

(** Recording modes, /repo/state/status.go:8-16. *)
Inductive recmode := RMOff | RMDebugger | RMStep | RMFull | RMSnapshot.

(** RecordSteps, /repo/state/status.go:37-44. *)
Definition record_steps (m : recmode) : bool :=
  match m with RMDebugger | RMStep | RMFull => true | _ => false end.
(** RecordSnapshot, /repo/state/status.go:47-54. *)
Definition record_snapshot (m : recmode) : bool :=
  match m with RMSnapshot | RMFull => true | _ => false end.

(** Everything the engine does not decide itself. The functions take the number of external calls
    made before (so the same call can answer differently every time: any behaviour of the
    outside world over a run is some [env]) and the [view]. The calls are cited where they are made (Behavior.v, Engine.v);
    the settings are read at /repo/support/env.go:70-92, /repo/instance/ind_instance.go:44-110 and
    /repo/action.go:178-446. *)
Record env := mk_env {
  (* external code *)
  e_act : nat -> view -> act;                        (* activity.Eval *)
  e_post : nat -> view -> option act;                (* AsyncActivity.PostEval; None: not async *)
  e_link : nat -> view -> link -> xres bool;         (* link.Expr().Eval and coerce.ToBool *)
  e_cond : nat -> view -> string -> xres val;        (* loop condition *)
  e_iter : nat -> view -> string -> xres val;        (* iterateOn expression *)
  e_num : nat -> view -> string -> xres Z;           (* retry count/interval expression + ToInt *)
  e_inmap : nat -> view -> xres vmap;                (* input mapper *)
  e_setmap : nat -> view -> xres vmap;               (* settings mapper *)
  e_inschema : nat -> view -> option err;            (* input schema validation *)
  e_outschema : nat -> view -> option err;           (* output schema validation *)
  e_toint : val -> option Z;                         (* coerce.ToInt *)
  e_toarr : val -> option (list val);                (* coerce.ToArray *)
  e_totype : bool -> view -> string -> val -> option val; (* coerce.ToType by input (false) / output (true) metadata *)
  e_assert : nat -> view -> xres bool;               (* primitive assertion: evaluated / failed to *)
  e_def : nat -> string -> def_res;                  (* support.GetDefinition *)
  (* configuration *)
  e_id : string;                                     (* instance id *)
  e_app : string;
  e_appver : string;
  e_conc : bool;                                     (* FLOGO_FLOW_CONCURRENT_TASK_EXECUTION *)
  e_prio : bool;                                     (* GetPrioritizeExprTask, support/env.go:82-92 *)
  e_propskip : bool;                                 (* GetPropagateSkip, support/env.go:70-80 *)
  e_listener : bool;                                 (* coreevent.HasListener(FlowEventType) *)
  e_rec : option recmode;                            (* instRecorder: nil, or its mode *)
  e_ext : bool;                                      (* a state recorder service exists *)
  e_track : bool;                                    (* trackingChanges, ind_instance.go:75-77 *)
  e_icpt : option icpt                               (* interceptor *)
}.

(** Changing one field of the environment (used to state what happens under another
    configuration; no Go counterpart). *)
Definition set_e_act (x : nat -> view -> act) (E : env) : env :=
  mk_env x (e_post E) (e_link E) (e_cond E) (e_iter E) (e_num E) (e_inmap E) (e_setmap E) (e_inschema E) (e_outschema E) (e_toint E) (e_toarr E) (e_totype E) (e_assert E) (e_def E) (e_id E) (e_app E) (e_appver E) (e_conc E) (e_prio E) (e_propskip E) (e_listener E) (e_rec E) (e_ext E) (e_track E) (e_icpt E).
(** The same for [e_post] (no Go counterpart). *)
Definition set_e_post (x : nat -> view -> option act) (E : env) : env :=
  mk_env (e_act E) x (e_link E) (e_cond E) (e_iter E) (e_num E) (e_inmap E) (e_setmap E) (e_inschema E) (e_outschema E) (e_toint E) (e_toarr E) (e_totype E) (e_assert E) (e_def E) (e_id E) (e_app E) (e_appver E) (e_conc E) (e_prio E) (e_propskip E) (e_listener E) (e_rec E) (e_ext E) (e_track E) (e_icpt E).
(** The same for [e_link] (no Go counterpart). *)
Definition set_e_link (x : nat -> view -> link -> xres bool) (E : env) : env :=
  mk_env (e_act E) (e_post E) x (e_cond E) (e_iter E) (e_num E) (e_inmap E) (e_setmap E) (e_inschema E) (e_outschema E) (e_toint E) (e_toarr E) (e_totype E) (e_assert E) (e_def E) (e_id E) (e_app E) (e_appver E) (e_conc E) (e_prio E) (e_propskip E) (e_listener E) (e_rec E) (e_ext E) (e_track E) (e_icpt E).
(** The same for [e_cond] (no Go counterpart). *)
Definition set_e_cond (x : nat -> view -> string -> xres val) (E : env) : env :=
  mk_env (e_act E) (e_post E) (e_link E) x (e_iter E) (e_num E) (e_inmap E) (e_setmap E) (e_inschema E) (e_outschema E) (e_toint E) (e_toarr E) (e_totype E) (e_assert E) (e_def E) (e_id E) (e_app E) (e_appver E) (e_conc E) (e_prio E) (e_propskip E) (e_listener E) (e_rec E) (e_ext E) (e_track E) (e_icpt E).
(** The same for [e_iter] (no Go counterpart). *)
Definition set_e_iter (x : nat -> view -> string -> xres val) (E : env) : env :=
  mk_env (e_act E) (e_post E) (e_link E) (e_cond E) x (e_num E) (e_inmap E) (e_setmap E) (e_inschema E) (e_outschema E) (e_toint E) (e_toarr E) (e_totype E) (e_assert E) (e_def E) (e_id E) (e_app E) (e_appver E) (e_conc E) (e_prio E) (e_propskip E) (e_listener E) (e_rec E) (e_ext E) (e_track E) (e_icpt E).
(** The same for [e_num] (no Go counterpart). *)
Definition set_e_num (x : nat -> view -> string -> xres Z) (E : env) : env :=
  mk_env (e_act E) (e_post E) (e_link E) (e_cond E) (e_iter E) x (e_inmap E) (e_setmap E) (e_inschema E) (e_outschema E) (e_toint E) (e_toarr E) (e_totype E) (e_assert E) (e_def E) (e_id E) (e_app E) (e_appver E) (e_conc E) (e_prio E) (e_propskip E) (e_listener E) (e_rec E) (e_ext E) (e_track E) (e_icpt E).
(** The same for [e_inmap] (no Go counterpart). *)
Definition set_e_inmap (x : nat -> view -> xres vmap) (E : env) : env :=
  mk_env (e_act E) (e_post E) (e_link E) (e_cond E) (e_iter E) (e_num E) x (e_setmap E) (e_inschema E) (e_outschema E) (e_toint E) (e_toarr E) (e_totype E) (e_assert E) (e_def E) (e_id E) (e_app E) (e_appver E) (e_conc E) (e_prio E) (e_propskip E) (e_listener E) (e_rec E) (e_ext E) (e_track E) (e_icpt E).
(** The same for [e_setmap] (no Go counterpart). *)
Definition set_e_setmap (x : nat -> view -> xres vmap) (E : env) : env :=
  mk_env (e_act E) (e_post E) (e_link E) (e_cond E) (e_iter E) (e_num E) (e_inmap E) x (e_inschema E) (e_outschema E) (e_toint E) (e_toarr E) (e_totype E) (e_assert E) (e_def E) (e_id E) (e_app E) (e_appver E) (e_conc E) (e_prio E) (e_propskip E) (e_listener E) (e_rec E) (e_ext E) (e_track E) (e_icpt E).
(** The same for [e_inschema] (no Go counterpart). *)
Definition set_e_inschema (x : nat -> view -> option err) (E : env) : env :=
  mk_env (e_act E) (e_post E) (e_link E) (e_cond E) (e_iter E) (e_num E) (e_inmap E) (e_setmap E) x (e_outschema E) (e_toint E) (e_toarr E) (e_totype E) (e_assert E) (e_def E) (e_id E) (e_app E) (e_appver E) (e_conc E) (e_prio E) (e_propskip E) (e_listener E) (e_rec E) (e_ext E) (e_track E) (e_icpt E).
(** The same for [e_outschema] (no Go counterpart). *)
Definition set_e_outschema (x : nat -> view -> option err) (E : env) : env :=
  mk_env (e_act E) (e_post E) (e_link E) (e_cond E) (e_iter E) (e_num E) (e_inmap E) (e_setmap E) (e_inschema E) x (e_toint E) (e_toarr E) (e_totype E) (e_assert E) (e_def E) (e_id E) (e_app E) (e_appver E) (e_conc E) (e_prio E) (e_propskip E) (e_listener E) (e_rec E) (e_ext E) (e_track E) (e_icpt E).
(** The same for [e_toint] (no Go counterpart). *)
Definition set_e_toint (x : val -> option Z) (E : env) : env :=
  mk_env (e_act E) (e_post E) (e_link E) (e_cond E) (e_iter E) (e_num E) (e_inmap E) (e_setmap E) (e_inschema E) (e_outschema E) x (e_toarr E) (e_totype E) (e_assert E) (e_def E) (e_id E) (e_app E) (e_appver E) (e_conc E) (e_prio E) (e_propskip E) (e_listener E) (e_rec E) (e_ext E) (e_track E) (e_icpt E).
(** The same for [e_toarr] (no Go counterpart). *)
Definition set_e_toarr (x : val -> option (list val)) (E : env) : env :=
  mk_env (e_act E) (e_post E) (e_link E) (e_cond E) (e_iter E) (e_num E) (e_inmap E) (e_setmap E) (e_inschema E) (e_outschema E) (e_toint E) x (e_totype E) (e_assert E) (e_def E) (e_id E) (e_app E) (e_appver E) (e_conc E) (e_prio E) (e_propskip E) (e_listener E) (e_rec E) (e_ext E) (e_track E) (e_icpt E).
(** The same for [e_totype] (no Go counterpart). *)
Definition set_e_totype (x : bool -> view -> string -> val -> option val) (E : env) : env :=
  mk_env (e_act E) (e_post E) (e_link E) (e_cond E) (e_iter E) (e_num E) (e_inmap E) (e_setmap E) (e_inschema E) (e_outschema E) (e_toint E) (e_toarr E) x (e_assert E) (e_def E) (e_id E) (e_app E) (e_appver E) (e_conc E) (e_prio E) (e_propskip E) (e_listener E) (e_rec E) (e_ext E) (e_track E) (e_icpt E).
(** The same for [e_assert] (no Go counterpart). *)
Definition set_e_assert (x : nat -> view -> xres bool) (E : env) : env :=
  mk_env (e_act E) (e_post E) (e_link E) (e_cond E) (e_iter E) (e_num E) (e_inmap E) (e_setmap E) (e_inschema E) (e_outschema E) (e_toint E) (e_toarr E) (e_totype E) x (e_def E) (e_id E) (e_app E) (e_appver E) (e_conc E) (e_prio E) (e_propskip E) (e_listener E) (e_rec E) (e_ext E) (e_track E) (e_icpt E).
(** The same for [e_def] (no Go counterpart). *)
Definition set_e_def (x : nat -> string -> def_res) (E : env) : env :=
  mk_env (e_act E) (e_post E) (e_link E) (e_cond E) (e_iter E) (e_num E) (e_inmap E) (e_setmap E) (e_inschema E) (e_outschema E) (e_toint E) (e_toarr E) (e_totype E) (e_assert E) x (e_id E) (e_app E) (e_appver E) (e_conc E) (e_prio E) (e_propskip E) (e_listener E) (e_rec E) (e_ext E) (e_track E) (e_icpt E).
(** The same for [e_id] (no Go counterpart). *)
Definition set_e_id (x : string) (E : env) : env :=
  mk_env (e_act E) (e_post E) (e_link E) (e_cond E) (e_iter E) (e_num E) (e_inmap E) (e_setmap E) (e_inschema E) (e_outschema E) (e_toint E) (e_toarr E) (e_totype E) (e_assert E) (e_def E) x (e_app E) (e_appver E) (e_conc E) (e_prio E) (e_propskip E) (e_listener E) (e_rec E) (e_ext E) (e_track E) (e_icpt E).
(** The same for [e_app] (no Go counterpart). *)
Definition set_e_app (x : string) (E : env) : env :=
  mk_env (e_act E) (e_post E) (e_link E) (e_cond E) (e_iter E) (e_num E) (e_inmap E) (e_setmap E) (e_inschema E) (e_outschema E) (e_toint E) (e_toarr E) (e_totype E) (e_assert E) (e_def E) (e_id E) x (e_appver E) (e_conc E) (e_prio E) (e_propskip E) (e_listener E) (e_rec E) (e_ext E) (e_track E) (e_icpt E).
(** The same for [e_appver] (no Go counterpart). *)
Definition set_e_appver (x : string) (E : env) : env :=
  mk_env (e_act E) (e_post E) (e_link E) (e_cond E) (e_iter E) (e_num E) (e_inmap E) (e_setmap E) (e_inschema E) (e_outschema E) (e_toint E) (e_toarr E) (e_totype E) (e_assert E) (e_def E) (e_id E) (e_app E) x (e_conc E) (e_prio E) (e_propskip E) (e_listener E) (e_rec E) (e_ext E) (e_track E) (e_icpt E).
(** The same for [e_conc] (no Go counterpart). *)
Definition set_e_conc (x : bool) (E : env) : env :=
  mk_env (e_act E) (e_post E) (e_link E) (e_cond E) (e_iter E) (e_num E) (e_inmap E) (e_setmap E) (e_inschema E) (e_outschema E) (e_toint E) (e_toarr E) (e_totype E) (e_assert E) (e_def E) (e_id E) (e_app E) (e_appver E) x (e_prio E) (e_propskip E) (e_listener E) (e_rec E) (e_ext E) (e_track E) (e_icpt E).
(** The same for [e_prio] (no Go counterpart). *)
Definition set_e_prio (x : bool) (E : env) : env :=
  mk_env (e_act E) (e_post E) (e_link E) (e_cond E) (e_iter E) (e_num E) (e_inmap E) (e_setmap E) (e_inschema E) (e_outschema E) (e_toint E) (e_toarr E) (e_totype E) (e_assert E) (e_def E) (e_id E) (e_app E) (e_appver E) (e_conc E) x (e_propskip E) (e_listener E) (e_rec E) (e_ext E) (e_track E) (e_icpt E).
(** The same for [e_propskip] (no Go counterpart). *)
Definition set_e_propskip (x : bool) (E : env) : env :=
  mk_env (e_act E) (e_post E) (e_link E) (e_cond E) (e_iter E) (e_num E) (e_inmap E) (e_setmap E) (e_inschema E) (e_outschema E) (e_toint E) (e_toarr E) (e_totype E) (e_assert E) (e_def E) (e_id E) (e_app E) (e_appver E) (e_conc E) (e_prio E) x (e_listener E) (e_rec E) (e_ext E) (e_track E) (e_icpt E).
(** The same for [e_listener] (no Go counterpart). *)
Definition set_e_listener (x : bool) (E : env) : env :=
  mk_env (e_act E) (e_post E) (e_link E) (e_cond E) (e_iter E) (e_num E) (e_inmap E) (e_setmap E) (e_inschema E) (e_outschema E) (e_toint E) (e_toarr E) (e_totype E) (e_assert E) (e_def E) (e_id E) (e_app E) (e_appver E) (e_conc E) (e_prio E) (e_propskip E) x (e_rec E) (e_ext E) (e_track E) (e_icpt E).
(** The same for [e_rec] (no Go counterpart). *)
Definition set_e_rec (x : option recmode) (E : env) : env :=
  mk_env (e_act E) (e_post E) (e_link E) (e_cond E) (e_iter E) (e_num E) (e_inmap E) (e_setmap E) (e_inschema E) (e_outschema E) (e_toint E) (e_toarr E) (e_totype E) (e_assert E) (e_def E) (e_id E) (e_app E) (e_appver E) (e_conc E) (e_prio E) (e_propskip E) (e_listener E) x (e_ext E) (e_track E) (e_icpt E).
(** The same for [e_ext] (no Go counterpart). *)
Definition set_e_ext (x : bool) (E : env) : env :=
  mk_env (e_act E) (e_post E) (e_link E) (e_cond E) (e_iter E) (e_num E) (e_inmap E) (e_setmap E) (e_inschema E) (e_outschema E) (e_toint E) (e_toarr E) (e_totype E) (e_assert E) (e_def E) (e_id E) (e_app E) (e_appver E) (e_conc E) (e_prio E) (e_propskip E) (e_listener E) (e_rec E) x (e_track E) (e_icpt E).
(** The same for [e_track] (no Go counterpart). *)
Definition set_e_track (x : bool) (E : env) : env :=
  mk_env (e_act E) (e_post E) (e_link E) (e_cond E) (e_iter E) (e_num E) (e_inmap E) (e_setmap E) (e_inschema E) (e_outschema E) (e_toint E) (e_toarr E) (e_totype E) (e_assert E) (e_def E) (e_id E) (e_app E) (e_appver E) (e_conc E) (e_prio E) (e_propskip E) (e_listener E) (e_rec E) (e_ext E) x (e_icpt E).
(** The same for [e_icpt] (no Go counterpart). *)
Definition set_e_icpt (x : option icpt) (E : env) : env :=
  mk_env (e_act E) (e_post E) (e_link E) (e_cond E) (e_iter E) (e_num E) (e_inmap E) (e_setmap E) (e_inschema E) (e_outschema E) (e_toint E) (e_toarr E) (e_totype E) (e_assert E) (e_def E) (e_id E) (e_app E) (e_appver E) (e_conc E) (e_prio E) (e_propskip E) (e_listener E) (e_rec E) (e_ext E) (e_track E) x.


(** ** The state monad: Go statements with panics. The state survives a panic. *)

(** How a Go function ends (model infrastructure; panics are recovered at the places cited at [catch]). *)
Inductive out (A : Type) :=
  | Ok (a : A)
  | Panic (m : string)      (* a Go panic *)
  | Fuel                    (* recursion bound of the model exhausted *)
  | Blocked.                (* waits for ever on a lock it holds itself *)
Arguments Ok {A} a.
Arguments Panic {A} m.
Arguments Fuel {A}.
Arguments Blocked {A}.

(** A Go statement (no counterpart; model infrastructure). *)
Definition M (A : Type) : Type := st -> out A * st.

(** return (model infrastructure). *)
Definition ret {A} (a : A) : M A := fun s => (Ok a, s).

(** Sequential composition (model infrastructure). *)
Definition bind {A B} (m : M A) (f : A -> M B) : M B := fun s =>
  match m s with
  | (Ok a, s') => f a s'
  | (Panic e, s') => (Panic e, s')
  | (Fuel, s') => (Fuel, s')
  | (Blocked, s') => (Blocked, s')
  end.
Declare Scope eng_scope.
(** Notation for [bind] (model infrastructure). *)
Notation "x <- m ; f" := (bind m (fun x => f))
  (at level 20, m at level 100, f at level 200) : eng_scope.
(** Notation for [bind] without a result (model infrastructure). *)
Notation "m1 ;; m2" := (bind m1 (fun _ => m2))
  (at level 100, m2 at level 200, right associativity) : eng_scope.
#[global] Open Scope eng_scope.

(** panic(...) (model infrastructure). *)
Definition panic {A} (m : string) : M A := fun s => (Panic m, s).

(** The recursion bound is exhausted (model infrastructure). *)
Definition out_of_fuel {A} : M A := fun s => (Fuel, s).

(** Read the state (model infrastructure). *)
Definition get : M st := fun s => (Ok s, s).
(** Change the state (model infrastructure). *)
Definition modify (f : st -> st) : M unit := fun s => (Ok tt, f s).

(** defer + recover (model infrastructure; used where the code recovers:
    /repo/instance/taskinst.go:269-276,303-312,467-476, /repo/instance/ind_instance.go:403-421). *)
Definition catch {A} (m : M A) (h : string -> M A) : M A := fun s =>
  match m s with
  | (Panic e, s') => h e s'
  | r => r
  end.

(** defer without recover: [f] runs also when [m] panics (model infrastructure). *)
Definition finally {A} (m : M A) (f : M unit) : M A :=
  r <- catch (x <- m; ret (inr x)) (fun e => ret (inl e));
  f ;;
  match r with inr x => ret x | inl e => panic e end.

(** Run [f] on every element in order (Go for range over a slice). *)
Fixpoint iterM {A} (f : A -> M unit) (l : list A) : M unit :=
  match l with [] => ret tt | x :: r => f x ;; iterM f r end.

(** ** Primitive operations on the state *)

(** Append an observable event (the change tracker / listener calls cited at [event]). *)
Definition log_ev (e : event) : M unit := modify (fun s => set_s_log (e :: s_log s) s).

(** Number the external calls (model infrastructure). *)
Definition tick : M nat := s <- get; modify (set_s_tick (S (s_tick s))) ;; ret (s_tick s).

(** Dereference a flow instance pointer (flowInst, host, master; /repo/instance/instance.go:16-21). A missing heap entry would be a nil
    pointer; it does not occur in reachable states. *)
Definition get_inst (i : nat) : M inst :=
  s <- get; match s_insts s !! i with Some x => ret x | None => panic "nil instance" end.
(** Dereference a task instance pointer (/repo/instance/taskinst.go:60-83), likewise. *)
Definition get_ti (t : nat) : M tinst :=
  s <- get; match s_tis s !! t with Some x => ret x | None => panic "nil task instance" end.

(** Assign fields through a pointer to a flow instance (/repo/instance/instance.go:16-46). *)
Definition upd_inst (i : nat) (f : inst -> inst) : M unit :=
  modify (fun s => set_s_insts (alter f i (s_insts s)) s).
(** Assign fields through a pointer to a task instance (/repo/instance/taskinst.go:60-83). *)
Definition upd_ti (t : nat) (f : tinst -> tinst) : M unit :=
  modify (fun s => set_s_tis (alter f t (s_tis s)) s).

(** The view of external code called for task instance [t]: what its activity.Context gives access to
    (/repo/instance/taskinst.go:85-265). *)
Definition view_of (s : st) (t : nat) : view :=
  match s_tis s !! t with
  | Some x => mk_view (ti_inst x) (t_id (ti_task x))
                (match s_insts s !! ti_inst x with Some y => i_attrs y | None => ∅ end)
                (ti_in x) (ti_out x) (ti_wd x) (ti_set x)
  | None => mk_view 0 "" ∅ ∅ ∅ ∅ ∅
  end.

(** Call external code for task instance [t]: gives the call number and the view. *)
Definition ext {A} (t : nat) (f : nat -> view -> A) : M A :=
  n <- tick; s <- get; ret (f n (view_of s t)).

(** Instance.ID, /repo/instance/instance.go:60-66. *)
Definition inst_id (E : env) (i : nat) : string :=
  if (i =? 0)%nat then e_id E else e_id E +:+ "-" +:+ pretty i.

(** Assign attributes of a flow instance; [tr]: the change is reported to the change tracker
    (/repo/instance/instance.go:264-268, /repo/instance/ind_instance.go:226-243). A whole map is
    assigned at once: the order of the assignments is the arbitrary Go map order and does not
    matter. *)
Definition set_attrs (tr : bool) (i : nat) (m : vmap) : M unit :=
  get_inst i ;;
  upd_inst i (fun x => set_i_attrs (m ∪ i_attrs x) x) ;;
  log_ev (EvSet i m tr).

(** SetValue for every entry of a map (loops at /repo/instance/util.go:326-332,
    /repo/action.go:411-413). *)
Definition set_values (E : env) (i : nat) (m : vmap) : M unit := set_attrs (e_track E) i m.

(** SetValue, /repo/instance/instance.go:254-271; the change is tracked only when trackingChanges
    is set (266-268). *)
Definition set_value (E : env) (i : nat) (n : string) (v : val) : M unit :=
  set_values E i {[ n := v ]}.

(** The map GetReturnData builds, /repo/instance/instance.go:175-187; once computed it is cached. A declared
    default value overrides the attribute (183-185). *)
Definition make_rdata (mdo : vmap) (attrs : vmap) : vmap :=
  map_imap (fun n d => match d with VNil => attrs !! n | _ => Some d end) mdo.
(** The function itself, /repo/instance/instance.go:168-191. *)
Definition get_return_data (i : nat) : M (option vmap * option err) :=
  x <- get_inst i;
  match i_rdata x with
  | Some d => ret (Some d, i_rerr x)
  | None =>
      match d_md (i_def x) with
      | Some (mk_md _ (Some mdo)) =>
          let d := make_rdata mdo (i_attrs x) in
          upd_inst i (set_i_rdata (Some d)) ;; ret (Some d, i_rerr x)
      | _ => ret (None, i_rerr x)
      end
  end.

(** The event of postFlowEvent, /repo/instance/flowevents.go:87-112, for return data [od]: status, inputs, outputs, error.
    Not modelled: time, names and ids of the flow, its parent and its host. *)
Definition flow_event (i : nat) (x : inst) (od : option vmap) : event :=
  let returned n := match od with
                    | Some d => match d !! n with Some VNil | None => false | Some _ => true end
                    | None => false
                    end in
  EvFlowEvent i (i_status x)
    (if bool_decide (i_status x = FNotStarted) then ∅
     else map_imap (fun n v => if returned n then None else Some v) (i_attrs x))
    (if bool_decide (i_status x = FCompleted) then map_imap (fun n v => if returned n then Some v else None) (i_attrs x) else ∅)
    (if bool_decide (i_status x = FFailed) then i_rerr x else None).

(** postFlowEvent, /repo/instance/flowevents.go:69-114: with a listener, posting calls
    GetReturnData for every status other than NotStarted (92-94). *)
Definition post_flow_event (E : env) (i : nat) : M unit :=
  if e_listener E then
    x <- get_inst i;
    od <- (if bool_decide (i_status x = FNotStarted) then ret None else r <- get_return_data i; ret r.1);
    log_ev (flow_event i x od)
  else ret tt.

(** Instance.SetStatus, /repo/instance/instance.go:201-209. *)
Definition set_flow_status (E : env) (i : nat) (z : Z) : M unit :=
  get_inst i ;;
  upd_inst i (set_i_status z) ;; log_ev (EvFlowStatus i z) ;; post_flow_event E i.

(** TaskInst.SetStatus, /repo/instance/taskinst.go:175-179. *)
Definition set_task_status (t : nat) (z : Z) : M unit :=
  x <- get_ti t;
  upd_ti t (set_ti_status z) ;;
  log_ev (EvTaskUpd (ti_inst x) (t_id (ti_task x)) z).

(** UpdateTaskToTracker, /repo/instance/taskinst.go:182-184. *)
Definition track_task (t : nat) : M unit :=
  x <- get_ti t; log_ev (EvTaskTrk (ti_inst x) (t_id (ti_task x)) (ti_status x)).

(** SetWorkingData, /repo/instance/taskinst.go:186-191 (a nil working data scope and an empty one
    behave alike: both resolve names through the flow instance). *)
Definition set_wd (t : nat) (k : string) (w : wval) : M unit :=
  upd_ti t (fun x => set_ti_wd (<[k := w]> (ti_wd x)) x).

(** NewTaskInst and initTaskInst, /repo/instance/taskinst.go:28-58: a task without an activity
    configuration makes initTaskInst dereference nil (54-56). *)
Definition new_tinst (i : nat) (tk : task) : M nat :=
  match t_act tk with
  | None => panic "nil activity config"
  | Some _ =>
      s <- get;
      let t := s_nti s in
      modify (fun s => set_s_tis (<[t := mk_tinst i tk TNotStarted ∅ ∅ ∅ ∅ None false]> (s_tis s))
                         (set_s_nti (S t) s)) ;;
      ret t
  end.

(** FindOrCreateTaskInst, /repo/instance/instance.go:83-101. *)
Definition find_or_create_task (i : nat) (tk : task) : M nat :=
  x <- get_inst i;
  match i_tasks x !! t_id tk with
  | Some t => ret t
  | None =>
      t <- new_tinst i tk;
      upd_inst i (fun x => set_i_tasks (<[t_id tk := t]> (i_tasks x)) x) ;;
      log_ev (EvTaskAdd i (t_id tk)) ;;
      ret t
  end.

(** FindOrCreateLinkData, /repo/instance/instance.go:105-121. *)
Definition find_or_create_link (i : nat) (l : link) : M unit :=
  x <- get_inst i;
  match i_links x !! l_id l with
  | Some _ => ret tt
  | None =>
      upd_inst i (fun x => set_i_links (<[l_id l := LUnset]> (i_links x)) x) ;;
      log_ev (EvLinkAdd i (l_id l))
  end.

(** LinkInst.Status, /repo/instance/linkinst.go:31-33. *)
Definition link_status (x : inst) (l : link) : Z :=
  match i_links x !! l_id l with Some z => z | None => LUnset end.

(** GetFromLinkInstances, /repo/instance/taskinst.go:229-245. *)
Definition from_links (t : nat) : M (list link) :=
  x <- get_ti t;
  iterM (find_or_create_link (ti_inst x)) (t_from (ti_task x)) ;;
  ret (t_from (ti_task x)).

(** GetToLinkInstances, /repo/instance/taskinst.go:248-264. *)
Definition to_links (t : nat) : M (list link) :=
  x <- get_ti t;
  iterM (find_or_create_link (ti_inst x)) (t_to (ti_task x)) ;;
  ret (t_to (ti_task x)).

(** The nil check hidden in Coverage accesses, /repo/support/interceptor.go:57-67. *)
Definition need_cov (c : icpt) (i : nat) (id : string) : M unit :=
  if ic_cov c then log_ev (EvCov i id) else panic "nil coverage".

(** LinkInst.SetStatus with addLinkToCoverage, /repo/instance/linkinst.go:36-74. *)
Definition set_link_status (E : env) (i : nat) (l : link) (z : Z) : M unit :=
  get_inst i ;;
  upd_inst i (fun x => set_i_links (<[l_id l := z]> (i_links x)) x) ;;
  log_ev (EvLinkSet i (l_id l) z) ;;
  (if bool_decide (z = LTrue)
   then match e_icpt E with Some c => need_cov c i (l_label l) | None => ret tt end
   else ret tt) ;;
  log_ev (EvLinkUpd i (l_id l) z).

(** releaseTask, /repo/instance/instance.go:123-137. *)
Definition release_task (i : nat) (tk : task) : M unit :=
  get_inst i ;;
  upd_inst i (fun x => set_i_tasks (delete (t_id tk) (i_tasks x)) x) ;;
  log_ev (EvTaskDel i (t_id tk)) ;;
  iterM (fun l =>
    get_inst i ;;
    upd_inst i (fun x => set_i_links (delete (l_id l) (i_links x)) x) ;;
    log_ev (EvLinkDel i (l_id l))) (t_from tk).

(** scheduleEval and NewWorkItem, /repo/instance/ind_instance.go:387-398 and 826-836. *)
Definition schedule_eval (t : nat) : M unit :=
  x <- get_ti t;
  s <- get;
  modify (fun s => set_s_queue (s_queue s ++ [(S (s_wictr s), t)]) (set_s_wictr (S (s_wictr s)) s)) ;;
  log_ev (EvQAdd (S (s_wictr s)) (ti_inst x) (t_id (ti_task x))).

(** populateBaseSnapshot, /repo/instance/ind_instance.go:991-1016. *)
Definition snap_of (s : st) (x : inst) : snap_base :=
  mk_sb (i_uri x) (i_status x) (i_attrs x)
    (omap (fun t => ti_status <$> s_tis s !! t) (i_tasks x)) (i_links x).

(** IndependentInstance.Snapshot, /repo/instance/ind_instance.go:969-989: the subflow snapshots are
    computed but never added to the result, the queue is not filled in. *)
Definition take_snapshot (s : st) : snapshot :=
  match s_insts s !! 0%nat with
  | Some x => mk_snap (snap_of s x) [] []
  | None => mk_snap (mk_sb "" 0 ∅ ∅ ∅) [] []
  end.

(** RecordState, /repo/instance/recorder.go:22-41: a nil instance recorder, a nil external recorder
    or (for steps) a disabled change tracker panics; the tracker is enabled exactly when there is
    a recorder service and the mode records steps (/repo/action.go:103-108). *)
Definition record_state (E : env) : M unit :=
  match e_rec E with
  | None => panic "nil instance recorder"
  | Some m =>
      (if record_snapshot m then
         if e_ext E then s <- get; log_ev (EvSnapshot (take_snapshot s)) else panic "nil recorder"
       else ret tt) ;;
      (if record_steps m then
         if e_ext E then log_ev EvStep else panic "nil step"
       else ret tt)
  end.
