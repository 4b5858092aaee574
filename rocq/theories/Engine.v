(** The engine: entering tasks, evaluating activities, finishing tasks, errors, steps.
    Models /repo/instance/ind_instance.go, /repo/instance/taskinst.go, /repo/instance/util.go,
    /repo/model/simple/{taskbehavior,iteratorbehavior,dowhilebehavior,retry}.go. *)
From Verif Require Export Behavior.
Local Open Scope Z_scope.

(** ** Error data *)

(** NewErrorObj and getErrorObject, /repo/instance/taskinst.go:623-625 and 562-579 (a map; here
    its fields as a list). *)
Definition error_obj (taskid : string) (e : err) : val :=
  let mk a ty c d := VObj [("activity", VStr a); ("message", VStr (err_text e));
                           ("type", VStr ty); ("code", VStr c); ("data", d)] in
  match e with
  | ELink _ => mk taskid "link_expr" "" VNil
  | EAct _ c d _ a => mk (if String.eqb a "" then taskid else a) "activity" c d
  | EEval tn ty _ => mk tn ty "" VNil
  | EOther _ => mk taskid "unknown" "" VNil
  end.

(** setTaskError, /repo/instance/taskinst.go:555-560. *)
Definition set_task_error (E : env) (t : nat) (e : err) : M unit :=
  x <- get_ti t;
  let id := t_id (ti_task x) in
  set_value E (ti_inst x) ("_E." +:+ id) (error_obj id e).

(** appendErrorData, /repo/instance/taskinst.go:547-553. *)
Definition append_error_data (E : env) (t : nat) (e : err) : M unit :=
  x <- get_ti t;
  let id := t_id (ti_task x) in
  set_value E (ti_inst x) "_E" (error_obj id e) ;;
  set_value E (ti_inst x) ("_E." +:+ id) (error_obj id e).

(** addActivityToCoverage, /repo/instance/ind_instance.go:753-790: with CollectIO the link
    instances are looked up, which creates missing ones. *)
Definition add_activity_coverage (E : env) (t : nat) : M unit :=
  match e_icpt E with
  | None => ret tt
  | Some c =>
      (if ic_collect c then from_links t ;; to_links t ;; ret tt else ret tt) ;;
      x <- get_ti t;
      need_cov c (ti_inst x) (t_id (ti_task x))
  end.

(** ** Entering and finishing tasks *)

(** The lock taken by enterTasks, /repo/instance/ind_instance.go:722-726: a sync.Mutex is not
    reentrant, so locking it again in the same goroutine never returns. *)
Definition with_lock {A} (E : env) (m : M A) : M A :=
  if e_conc E then
    s <- get;
    if s_lock s then (fun s => (Blocked, s))
    else modify (set_s_lock true) ;; finally m (modify (set_s_lock false))
  else m.

(** applySettingsMapper, /repo/instance/util.go:26-44. *)
Definition apply_settings (E : env) (t : nat) : M (option err) :=
  x <- get_ti t;
  if t_set (ti_task x) then
    r <- ext t (e_setmap E);
    match r with
    | XOk m => upd_ti t (set_ti_set m) ;; ret None
    | XErr e => upd_ti t (set_ti_set ∅) ;; ret (Some e)
    | XPanic m => panic m
    end
  else ret None.

Section Enter_list_def.
Context (E : env) (skip : nat -> M unit).
(** The loop of enterTasks, /repo/instance/ind_instance.go:728-750; [skip] is
    handleTaskDone, called for a task that is skipped. *)
Fixpoint enter_list (i : nat) (es : list entry) : M (option err) :=
  match es with
  | [] => ret None
  | (tk, _) :: r =>
      t <- find_or_create_task i tk;
      x <- get_ti t;
      if e_conc E && ti_sched x then enter_list i r
      else
        er <- enter t;
        match er with
        | EREval =>
            m <- apply_settings E t;
            match m with
            | Some e => ret (Some e)
            | None =>
                upd_ti t (set_ti_sched true) ;;
                schedule_eval t ;;
                enter_list i r
            end
        | ERSkip => skip t ;; enter_list i r
        | ERNotReady => enter_list i r
        end
  end.
End Enter_list_def.

(** The host of an embedded instance, /repo/instance/ind_instance.go:111,524. *)
Definition host_of (i : nat) : M (option nat) := x <- get_inst i; ret (i_host x).

(** [inst.taskInsts = make(...)], /repo/instance/ind_instance.go:684. *)
Definition clear_tasks : M unit :=
  get_inst 0%nat ;; upd_inst 0%nat (set_i_tasks ∅) ;; log_ev (EvTasksClear 0%nat).

(** HandleGlobalError, /repo/instance/ind_instance.go:666-719; [ent] is enterTasks. Line 684 clears
    the task instances of the independent instance, also when the failing flow is a subflow. *)
Definition handle_global_error (E : env) (ent : nat -> list entry -> M (option err))
    (i : nat) (e : err) : M unit :=
  x <- get_inst i;
  if i_handling x then set_flow_status E i FFailed
  else
    upd_inst i (set_i_handling true) ;;
    match d_eh (i_def x) with
    | Some h =>
        clear_tasks ;;
        ent i (start_entries (eh_tasks h)) ;;
        ret tt
    | None =>
        set_flow_status E i FFailed ;;
        if (i =? 0)%nat then upd_inst 0%nat (set_i_rerr (Some e))
        else
          record_state E ;;
          h <- host_of i;
          match h with
          | Some ht => upd_ti ht (set_ti_rerr (Some e)) ;; schedule_eval ht
          | None => ret tt
          end
    end.

(** The completion branch of handleTaskDone, /repo/instance/ind_instance.go:509-558. *)
Definition complete_flow (E : env) (i : nat) : M unit :=
  set_flow_status E i FCompleted ;;
  if (i =? 0)%nat then log_ev EvFlowDone
  else
    x <- get_inst i;
    (match i_host x with
     | Some ht =>
         upd_ti ht (fun y => set_ti_rerr None
                     (set_ti_out (match i_rdata x with Some d => d | None => ∅ end) y)) ;;
         log_ev (EvSubDone i) ;;
         schedule_eval ht
     | None => ret tt
     end) ;;
    modify (fun s => set_s_subs (s_subs s ∖ {[ i ]}) s).

(** The error text of /repo/instance/ind_instance.go:495. *)
Definition done_error (tn fn : string) (e : err) : err :=
  EOther ("error handling task done transition for task [" +:+ tn +:+ "] in flow [" +:+ fn +:+
          "] : " +:+ err_text e).

(** handleTaskDone, /repo/instance/ind_instance.go:471-574; [ent] is enterTasks. The branch of
    lines 483-485 (propagateSkip, 576-602) is not reachable since Skip always returns false. *)
Definition handle_task_done (E : env) (ent : nat -> list entry -> M (option err)) (t : nat) : M unit :=
  x <- get_ti t;
  let i := ti_inst x in
  r <- (if bool_decide (ti_status x = TSkipped) then
          s <- beh_skip E t; ret (inr (s.1.1, s.1.2))
        else
          d <- beh_done E t;
          add_activity_coverage E t ;;
          ret d);
  match r with
  | inl e =>
      m <- get_inst 0%nat;
      let e' := done_error (t_name (ti_task x)) (d_name (i_def m)) e in
      append_error_data E t e' ;;
      handle_global_error E ent i e'
  | inr (notify, es) =>
      fd <- (if notify : bool then flow_task_done i else ret false);
      y <- get_inst i;
      (if fd || i_force y then complete_flow E i
       else ent i es ;; ret tt) ;;
      release_task i (ti_task x)
  end.

Section Enter_tasks_def.
Context (E : env).
(** enterTasks, /repo/instance/ind_instance.go:721-751. [n] bounds the nesting of skipped tasks. *)
Fixpoint enter_tasks (n : nat) (i : nat) (es : list entry) : M (option err) :=
  with_lock E (enter_list E (fun t =>
    match n with
    | O => out_of_fuel
    | S n' => handle_task_done E (enter_tasks n') t
    end) i es).
End Enter_tasks_def.

(** enterTasks, /repo/instance/ind_instance.go:721-751, with a bound for the mutual recursion with handleTaskDone (model
    infrastructure; when the bound is too small the result is [Fuel]). *)
Definition enter_top (E : env) (i : nat) (es : list entry) : M (option err) :=
  x <- get_inst i;
  enter_tasks E (S (length (all_tasks (i_def x)))) i es.

(** handleTaskError, /repo/instance/ind_instance.go:605-663. *)
Definition handle_task_error (E : env) (t : nat) (e : err) : M unit :=
  set_task_status t TFailed ;;
  add_activity_coverage E t ;;
  r <- beh_error E t;
  x <- get_ti t;
  let i := ti_inst x in
  if (r.1 : bool) then
    set_task_error E t e ;;
    (match r.2 with [] => ret tt | es => enter_top E i es ;; ret tt end) ;;
    release_task i (ti_task x)
  else
    y <- get_inst i;
    if i_handling y then
      set_flow_status E i FFailed ;;
      if (i =? 0)%nat then append_error_data E t e
      else
        record_state E ;;
        match i_host y with
        | Some ht => upd_ti ht (set_ti_rerr (Some e)) ;; schedule_eval ht
        | None => ret tt
        end
    else
      append_error_data E t e ;;
      handle_global_error E (enter_top E) i e.

(** ** Starting a flow *)

(** The reserved attributes set by startInstance, /repo/instance/ind_instance.go:177-217 (tracing is
    not modelled: TraceId and SpanId are empty). [h]: name and id of the parent flow. *)
Definition ctx_attrs (E : env) (name id : string) (h : string * string) : vmap :=
  list_to_map [("_fctx.FlowName", VStr name); ("_fctx.FlowId", VStr id);
               ("_fctx.AppName", VStr (e_app E)); ("_fctx.AppVersion", VStr (e_appver E));
               ("_fctx.TraceId", VStr ""); ("_fctx.SpanId", VStr "");
               ("_fctx.ParentFlowName", VStr h.1); ("_fctx.ParentFlowId", VStr h.2)].

(** Name and id of the flow that started instance [i], /repo/instance/ind_instance.go:203-217. *)
Definition parent_info (E : env) (i : nat) : M (string * string) :=
  h <- host_of i;
  match h with
  | None => ret ("", "")
  | Some ht =>
      x <- get_ti ht;
      y <- get_inst (ti_inst x);
      ret (d_name (i_def y), inst_id E (ti_inst x))
  end.

(** startInstance, /repo/instance/ind_instance.go:175-259. *)
Definition start_instance (E : env) (i : nat) (attrs : vmap) : M unit :=
  x <- get_inst i;
  h <- parent_info E i;
  set_values E i (ctx_attrs E (d_name (i_def x)) (inst_id E i) h) ;;
  (match d_md (i_def x) with Some md => set_attrs true i (md_in md) | None => ret tt end) ;;
  set_attrs true i attrs ;;
  set_flow_status E i FActive ;;
  enter_top E i (start_entries (d_tasks (i_def x))) ;;
  ret tt.

(** newEmbeddedInstance, /repo/instance/ind_instance.go:99-133. *)
Definition new_embedded (t : nat) (uri : string) (d : defn) : M nat :=
  s <- get;
  x <- get_ti t;
  let i := S (s_sfctr s) in
  modify (fun s =>
    set_s_insts (<[i := mk_inst (Some t) false FNotStarted d uri ∅ ∅ false None None ∅ false]> (s_insts s))
      (set_s_sfctr i (set_s_subs ({[ i ]} ∪ s_subs s) s))) ;;
  log_ev (EvSubCreated i uri (ti_inst x) (t_id (ti_task x))) ;;
  ret i.

(** StartSubFlow with addSubFlowToCoverage, /repo/instance/util.go:353-381 and
    /repo/instance/ind_instance.go:792-804. Result: an error if the flow cannot be found. *)
Definition start_subflow (E : env) (t : nat) (uri : string) (ins : vmap) : M (option err) :=
  n <- tick;
  match e_def E n uri with
  | DErr e => ret (Some e)
  | DNil => ret (Some (EOther ("unable to resolve subflow: " +:+ uri)))
  | DOk d =>
      i <- new_embedded t uri d;
      start_instance E i ins ;;
      (match e_icpt E with
       | Some c => x <- get_ti t; need_cov c (ti_inst x) (t_id (ti_task x))
       | None => ret tt
       end) ;;
      ret None
  end.

(** ** Evaluating an activity *)

(** Reply, /repo/instance/instance.go:147-152. *)
Definition reply (i : nat) (d : option vmap) (e : option err) : M unit :=
  x <- get_inst i;
  if i_handler x then
    upd_inst i (set_i_rdata d) ;; log_ev (EvResult d e)
  else ret tt.

(** Return, /repo/instance/instance.go:154-158. *)
Definition return_ (i : nat) (d : option vmap) (e : option err) : M unit :=
  upd_inst i (fun x => set_i_force true (set_i_rdata d (set_i_rerr e x))) ;;
  log_ev (EvReturn i d e).

Section Run_act_def.
Context (E : env).
(** The calls an activity makes on its context (see [act]; the functions are cited there). *)
Fixpoint run_act (t : nat) (a : act) : M act_end :=
  x <- get_ti t;
  match a with
  | AEnd r => ret r
  | AOut n v k => upd_ti t (fun y => set_ti_out (<[n := v]> (ti_out y)) y) ;; run_act t k
  | AOuts m k => upd_ti t (set_ti_out m) ;; run_act t k
  | AScope n v k => set_value E (ti_inst x) n v ;; run_act t k
  | AReply d e k => reply (ti_inst x) d e ;; run_act t k
  | AReturn d e k => return_ (ti_inst x) d e ;; run_act t k
  | AStart uri ins kerr kok =>
      r <- start_subflow E t uri ins;
      match r with
      | Some _ => run_act t kerr
      | None => run_act t kok
      end
  end.
End Run_act_def.

(** GetTaskInterceptor, /repo/support/interceptor.go:53-55. *)
Definition task_icpt (E : env) (id : string) : option ticpt :=
  match e_icpt E with Some c => ic_tasks c !! id | None => None end.

(** The id under which assertions, mocks and results are looked up: flow name "-" task id,
    /repo/instance/util.go:134,213,230,282. *)
Definition icpt_id (t : nat) : M string :=
  x <- get_ti t;
  y <- get_inst (ti_inst x);
  ret (d_name (i_def y) +:+ "-" +:+ t_id (ti_task x)).

(** applyInputMapper, /repo/instance/util.go:46-82 (patches never carry a mapper:
    /repo/support/patch.go:59-66 leaves it nil). *)
Definition apply_input_mapper (E : env) (t : nat) : M (option err) :=
  r <- ext t (e_inmap E);
  match r with
  | XOk m => upd_ti t (set_ti_in m) ;; ret None
  | XErr e => upd_ti t (set_ti_in ∅) ;; ret (Some e)
  | XPanic m => panic m
  end.

(** applyInputInterceptor, /repo/instance/util.go:84-126; an input that cannot be coerced becomes
    nil (110-113). Returns whether to evaluate the activity. *)
Definition apply_input_icpt (E : env) (t : nat) : M bool :=
  x <- get_ti t;
  match task_icpt E (t_id (ti_task x)) with
  | None => ret true
  | Some c =>
      v <- (s <- get; ret (view_of s t));
      upd_ti t (fun y => set_ti_in
        (map_imap (fun n w => Some (match e_totype E false v n w with Some w' => w' | None => VNil end))
           (tc_in c) ∪ ti_in y) y) ;;
      ret (negb (tc_skip c))
  end.

(** setActivityExecutionStatus, /repo/instance/util.go:276-288. *)
Definition set_exec_status (E : env) (t : nat) (z : Z) : M unit :=
  id <- icpt_id t;
  match task_icpt E id with Some _ => log_ev (EvIcpt id z) | None => ret tt end.

(** applyOutputInterceptor, /repo/instance/util.go:222-274. Types: 4 mock activity, 5 mock exception
    (/repo/support/interceptor.go:10-16). When an output cannot be coerced, which of the other
    mocked outputs were already written depends on map order; here none is. *)
Definition apply_output_icpt (E : env) (t : nat) : M (option err) :=
  id <- icpt_id t;
  match task_icpt E id with
  | None => ret None
  | Some c =>
      if bool_decide (tc_out c = ∅) then ret None
      else
        v <- (s <- get; ret (view_of s t));
        let m := map_imap (fun n w => Some (e_totype E true v n w)) (tc_out c) in
        if (tc_type c =? 4)%Z then
          if forallb (fun p => match p.2 with Some _ => true | None => false end) (map_to_list m) then
            upd_ti t (fun y => set_ti_out (omap (fun o => o) m ∪ ti_out y) y) ;; ret None
          else ret (Some (EOther "unable to coerce mock output"))
        else if (tc_type c =? 5)%Z then
          match tc_out c !! "message" with
          | Some (VStr msg) =>
              let d := match tc_out c !! "data" with
                       | None | Some VNil => VObj [] | Some d => d end in
              ret (Some (EAct msg "" d false (v_task v)))
          | _ => panic "interface conversion"
          end
        else ret None
  end.

Section Run_asserts_def.
Context (E : env).
(** The loop over the assertions, /repo/instance/util.go:139-173. *)
Fixpoint run_asserts (t : nat) (id : string) (match_type : bool) (k : nat)
    (l : list asrt) : M (option err) :=
  match l with
  | [] => ret None
  | a :: r =>
      if negb match_type then
        log_ev (EvAssert id k ARAssertionNotExecuted) ;; run_asserts t id match_type (S k) r
      else if as_empty a then
        log_ev (EvAssert id k ARNotExecuted) ;; run_asserts t id match_type (S k) r
      else if (as_type a =? 1)%Z then
        x <- ext t (e_assert E);
        match x with
        | XOk b => log_ev (EvAssert id k (if b then ARPass else ARFail)) ;;
                   run_asserts t id match_type (S k) r
        | XErr _ => log_ev (EvAssert id k ARFail) ;; run_asserts t id match_type (S k) r
        | XPanic m => panic m
        end
      else ret (Some (EOther "Invalid Assertion Mode"))
  end.
End Run_asserts_def.

(** applyAssertionInterceptor, /repo/instance/util.go:128-178; assertType 1 activity,
    2 exception. *)
Definition apply_asserts (E : env) (t : nat) (ty : Z) : M (option err) :=
  id <- icpt_id t;
  match task_icpt E id with
  | None => ret None
  | Some c => run_asserts E t id (tc_type c =? ty)%Z 0%nat (tc_asserts c)
  end.

(** The default output mapper, /repo/definition/mapper.go:34-50, applied by applyOutputMapper,
    /repo/instance/util.go:306-338 and taskinst.go:449-460 (it cannot fail). *)
Definition mapped_outputs (id : string) (outs : option (list string)) (o : vmap) : vmap :=
  match outs with
  | None => ∅
  | Some ns => list_to_map (omap (fun n => (fun v => ("_A." +:+ id +:+ "." +:+ n, v)) <$> o !! n) ns)
  end.
(** applyOutputMapper, /repo/instance/taskinst.go:449-460 and /repo/instance/util.go:306-338 (patches are not modelled). *)
Definition apply_output_mapper (E : env) (t : nat) : M unit :=
  x <- get_ti t;
  match t_act (ti_task x) with
  | Some ac => set_values E (ti_inst x) (mapped_outputs (t_id (ti_task x)) (ac_outs ac) (ti_out x))
  | None => ret tt
  end.

(** handleAccumulation, /repo/instance/taskinst.go:581-600. *)
Definition handle_accumulation (E : env) (t : nat) : M (option err) :=
  x <- get_ti t;
  y <- get_inst (ti_inst x);
  let key := "_A." +:+ t_id (ti_task x) in
  let o := VObj (map_to_list (ti_out x)) in
  match i_attrs y !! key with
  | None => set_value E (ti_inst x) key (VArr [o]) ;; ret None
  | Some a =>
      match e_toarr E a with
      | Some l => set_value E (ti_inst x) key (VArr (l ++ [o])) ;; ret None
      | None => ret (Some (EOther "accumulate outputs must be array"))
      end
  end.

(** Does the task accumulate, LoopConfig().Accumulate(), /repo/instance/taskinst.go:423,511. *)
Definition accumulates (tk : task) : bool :=
  match t_loop tk with Some c => lc_acc c | None => false end.
(** ApplyOutputOnAccumulate(), /repo/instance/taskinst.go:428. *)
Definition acc_apply (tk : task) : bool :=
  match t_loop tk with Some c => lc_accapply c | None => false end.

(** Run the rest only if there was no error (Go: if err != nil return false, err; e.g. /repo/instance/taskinst.go:506-509). *)
Definition guard_err {A} (m : M (option err)) (k : M (err + A)) : M (err + A) :=
  r <- m; match r with Some e => ret (inl e) | None => k end.

(** SetActivityName on an *activity.Error, /repo/instance/taskinst.go:372-375,492-495. *)
Definition name_err (tn : string) (e : err) : err :=
  match e with EAct m c d r _ => EAct m c d r tn | _ => e end.

(** Calling Activity.Eval and what follows it directly, /repo/instance/taskinst.go:369-390. A panic
    while the exception assertions run does not replace the error (313). A panic of the activity, or
    of the engine called by it, is noted in the log before it goes on. *)
Definition call_activity (E : env) (t : nat) : M (err + bool) :=
  x <- get_ti t;
  let i := ti_inst x in
  let id := t_id (ti_task x) in
  log_ev (EvAct i id (ti_in x) (ti_wd x !! "iteration")) ;;
  a <- ext t (e_act E);
  r <- catch (run_act E t a) (fun m => ret (APanic m));
  match r with
  | ADone => log_ev (EvActEnd i id None) ;; set_exec_status E t 1 ;; ret (inr true)
  | AWait => log_ev (EvActEnd i id None) ;; set_exec_status E t 1 ;; ret (inr false)
  | APanic m => log_ev (EvActEnd i id (Some (EEval (t_name (ti_task x)) "unhandled" m))) ;; panic m
  | AErr e0 =>
      let e := name_err (t_name (ti_task x)) e0 in
      log_ev (EvActEnd i id (Some e)) ;;
      set_exec_status E t 2 ;;
      y <- get_inst i;
      (if i_handling y then ret tt else set_value E i "_E" (error_obj id e)) ;;
      set_value E i ("_E." +:+ id) (error_obj id e) ;;
      catch (apply_asserts E t 2 ;; ret tt) (fun _ => ret tt) ;;
      ret (inl e)
  end.

(** What EvalActivity does when the activity is done, /repo/instance/taskinst.go:401-446. *)
Definition finish_activity (E : env) (t : nat) : M (err + bool) :=
  x <- get_ti t;
  guard_err (ext t (e_outschema E)) (
  guard_err (apply_output_icpt E t) (
  guard_err (if accumulates (ti_task x) then
               r <- handle_accumulation E t;
               match r with
               | Some e => ret (Some e)
               | None => (if acc_apply (ti_task x) then apply_output_mapper E t else ret tt) ;; ret None
               end
             else apply_output_mapper E t ;; ret None) (
  guard_err (apply_asserts E t 1) (
  ret (inr true))))).

(** Wrap a panic into the error both evaluation functions report,
    /repo/instance/taskinst.go:301-321 and 467-483. *)
Definition recover_eval (t : nat) (m : M (err + bool)) : M (err + bool) :=
  catch m (fun msg => x <- get_ti t; ret (inl (EEval (t_name (ti_task x)) "unhandled" msg))).

(** hasOutputInterceptor, /repo/instance/util.go:206-220. *)
Definition has_output_icpt (E : env) (t : nat) : M bool :=
  id <- icpt_id t;
  ret (match task_icpt E id with Some c => tc_skipexec c | None => false end).

(** EvalActivity, /repo/instance/taskinst.go:298-447 (legacy contexts behave like normal ones). *)
Definition eval_activity (E : env) (t : nat) : M (err + bool) :=
  recover_eval t (
    x <- get_ti t;
    match t_act (ti_task x) with
    | None => panic "nil activity config"
    | Some ac =>
        guard_err (if ac_inmap ac then
                     r <- apply_input_mapper E t;
                     ret (match r with
                          | Some e => Some (EEval (t_name (ti_task x)) "mapper" (err_text e))
                          | None => None end)
                   else ret None) (
        ev <- apply_input_icpt E t;
        if ev : bool then
          guard_err (ext t (e_inschema E)) (
          mocked <- has_output_icpt E t;
          if mocked : bool then set_exec_status E t 3 ;; finish_activity E t
          else
            r <- call_activity E t;
            match r with
            | inl e => ret (inl e)
            | inr false => ret (inr false)
            | inr true => finish_activity E t
            end)
        else finish_activity E t)
    end).

(** PostEvalActivity, /repo/instance/taskinst.go:463-535. *)
Definition post_eval_activity (E : env) (t : nat) : M (err + bool) :=
  recover_eval t (
    x <- get_ti t;
    let i := ti_inst x in
    let id := t_id (ti_task x) in
    p <- ext t (e_post E);
    r <- (match p with
          | None => ret (inr true)
          | Some a =>
              log_ev (EvPost i id) ;;
              q <- run_act E t a;
              match q with
              | ADone => ret (inr true)
              | AWait => ret (inr false)
              | APanic m => panic m
              | AErr e => ret (inl (name_err (t_name (ti_task x)) e))
              end
          end);
    match r with
    | inl e => ret (inl e)
    | inr done =>
        y <- get_ti t;
        match ti_rerr y with
        | Some e => ret (inl e)
        | None =>
            if done : bool then
              guard_err (apply_output_icpt E t) (
              guard_err (if accumulates (ti_task y) then handle_accumulation E t
                         else apply_output_mapper E t ;; ret None) (
              guard_err (apply_asserts E t 1) (
              ret (inr true))))
            else ret (inr false)
        end
    end).

(** ** Retry *)

(** Count and Interval of the retry configuration, /repo/definition/definition.go:294-326. *)
Definition retry_value (E : env) (t : nat) (c : option num_cfg) : M (err + Z) :=
  match c with
  | None => ret (inr 0)
  | Some (NCInt z) => ret (inr z)
  | Some (NCExpr src) =>
      r <- ext t (fun n v => e_num E n v src);
      match r with
      | XOk z => ret (inr z)
      | XErr e => ret (inl e)
      | XPanic m => panic m
      end
  end.

(** getRetryData, /repo/model/simple/retry.go:24-53. *)
Definition retry_data (E : env) (t : nat) (rc : retry_cfg) : M (err + Z * Z) :=
  x <- get_ti t;
  match ti_wd x !! "_retryOnErrorAttr" with
  | None =>
      c <- retry_value E t (rc_count rc);
      match c with
      | inl e => ret (inl e)
      | inr c =>
          iv <- retry_value E t (rc_interval rc);
          match iv with
          | inl e => ret (inl e)
          | inr iv => set_wd t "_retryOnErrorAttr" (WRetry c iv) ;; ret (inr (c, iv))
          end
      end
  | Some (WRetry c iv) => ret (inr (c, iv))
  | Some _ => ret (inl (EOther "error getting retry data"))
  end.

(** errVal.Retriable(), /repo/model/simple/taskbehavior.go:121. *)
Definition retriable (e : err) : bool := match e with EAct _ _ _ r _ => r | _ => false end.

Section Retry_loop_def.
Context (E : env).
(** The mutual recursion of evalActivity and retryEval, /repo/model/simple/taskbehavior.go:116-152
    and /repo/model/simple/retry.go:56-73: [r] is the outcome of the last evaluation. The sleep is
    not modelled. *)
Fixpoint retry_loop (n : nat) (t : nat) (r : err + bool) : M (err + bool) :=
  x <- get_ti t;
  match r, t_retry (ti_task x) with
  | inl e, Some rc =>
      if retriable e then
        d <- retry_data E t rc;
        match d with
        | inl e' => ret (inl e')
        | inr (c, iv) =>
            if (0 <? c)%Z then
              match n with
              | O => out_of_fuel
              | S n' =>
                  set_wd t "_retryOnErrorAttr" (WRetry (c - 1) iv) ;;
                  r' <- eval_activity E t;
                  retry_loop n' t r'
              end
            else ret (inl e)
        end
      else ret (inl e)
  | _, _ => ret r
  end.
End Retry_loop_def.

(** The bound for [retry_loop]: the retry count once it is known (RemainingRetryCount,
    /repo/model/simple/taskbehavior.go:116-152). *)
Definition retry_bound (t : nat) : M nat :=
  x <- get_ti t;
  ret (match ti_wd x !! "_retryOnErrorAttr" with Some (WRetry c _) => Z.to_nat c | _ => O end).

(** evalActivity, /repo/model/simple/taskbehavior.go:116-152. The retry data is read before the loop
    only to know the bound; reading it again gives the stored value. *)
Definition eval_retry (E : env) (t : nat) : M (err + bool) :=
  r <- eval_activity E t;
  x <- get_ti t;
  match r, t_retry (ti_task x) with
  | inl e, Some rc =>
      if retriable e then
        d <- retry_data E t rc;
        match d with
        | inl e' => ret (inl e')
        | inr _ => n <- retry_bound t; retry_loop E n t r
        end
      else ret r
  | _, _ => ret r
  end.

(** ** Task behaviours that evaluate *)

(** Eval of the basic task, /repo/model/simple/taskbehavior.go:87-112. *)
Definition basic_eval (E : env) (t : nat) : M (err + eval_result) :=
  x <- get_ti t;
  if bool_decide (ti_status x = TSkipped) then ret (inr EvalSkip)
  else
    r <- eval_retry E t;
    ret (match r with
         | inl e => inl e
         | inr true => inr EvalDone
         | inr false => inr EvalWait
         end).

(** PostEval of the basic task, /repo/model/simple/taskbehavior.go:155-196: the result of
    PostEvalActivity is ignored, and an activity error is retried whether retriable or not. *)
Definition basic_post (E : env) (t : nat) : M (err + eval_result) :=
  r <- post_eval_activity E t;
  x <- get_ti t;
  match r, t_retry (ti_task x) with
  | inr _, _ => ret (inr EvalDone)
  | inl (EAct _ _ _ _ _ as e), Some rc =>
      d <- retry_data E t rc;
      match d with
      | inl e' => ret (inl e')
      | inr (c, iv) =>
          if (0 <? c)%Z then
            set_wd t "_retryOnErrorAttr" (WRetry (c - 1) iv) ;;
            r' <- eval_retry E t;
            ret (match r' with
                 | inl e' => inl e'
                 | inr true => inr EvalDone
                 | inr false => inr EvalWait
                 end)
          else ret (inl e)
      end
  | inl e, _ => ret (inl e)
  end.

(** next(), Key(), Value(), Index() and HasNext() of the iterators,
    /repo/model/simple/iteratorbehavior.go:207-359: [iter_next] advances and tells whether there is
    an element. *)
Definition iter_next (it : iter) : iter * option (val * val * Z) :=
  match it with
  | ItArr c l =>
      let c' := c + 1 in
      (ItArr c' l,
       if (c' <? Z.of_nat (length l))%Z
       then (fun v => (VInt c', v, c')) <$> (l !! Z.to_nat c') else None)
  | ItInt c n =>
      let c' := c + 1 in
      (ItInt c' n, if (c' <? n)%Z then Some (VInt c', VInt c', c') else None)
  | ItObj c l =>
      let c' := c + 1 in
      (ItObj c' l,
       if (c' <? Z.of_nat (length l))%Z
       then (fun p => (VStr p.1, p.2, c')) <$> (l !! Z.to_nat c') else None)
  end.
(** HasNext of the iterators, /repo/model/simple/iteratorbehavior.go:220-225,256-261,294-299 (338-343 is like 220-225). *)
Definition iter_has_next (it : iter) : bool :=
  match it with
  | ItArr c l => (c <? Z.of_nat (length l))%Z
  | ItInt c n => (c <? n)%Z
  | ItObj c l => (c <? Z.of_nat (length l))%Z
  end.

(** The iterator for a value, /repo/model/simple/iteratorbehavior.go:67-99 (a reflected slice is an
    array here). [None]: not a valid iterate value. *)
Definition make_iter (E : env) (v : val) : option iter :=
  match v with
  | VStr _ => (fun n => ItInt (-1) n) <$> e_toint E v
  | VInt n => Some (ItInt (-1) n)
  | VObj l => Some (ItObj (-1) l)
  | VArr l => Some (ItArr (-1) l)
  | _ => None
  end.

(** Advance the iterator and evaluate the activity,
    /repo/model/simple/iteratorbehavior.go:114-150. *)
Definition iter_step (E : env) (t : nat) (it : iter) : M (err + eval_result) :=
  let (it', o) := iter_next it in
  set_wd t "_iterator" (WIter it') ;;
  match o with
  | None => ret (inr EvalDone)
  | Some (k, v, ix) =>
      set_wd t "iteration" (WIteration k v ix) ;;
      r <- eval_retry E t;
      match r with
      | inl e => set_task_status t TFailed ;; ret (inl e)
      | inr false => set_task_status t TWaiting ;; ret (inr EvalWait)
      | inr true => ret (inr EvalRepeat)
      end
  end.

(** What the task iterates on, /repo/model/simple/iteratorbehavior.go:49-59. *)
Definition iterate_on (E : env) (t : nat) (c : loop_cfg) : M (err + val) :=
  match lc_iter c with
  | None => ret (inr VNil)
  | Some (IOVal v) => ret (inr v)
  | Some (IOExpr src) =>
      r <- ext t (fun n v => e_iter E n v src);
      match r with
      | XOk v => ret (inr v)
      | XErr e => ret (inl e)
      | XPanic m => panic m
      end
  end.

(** Eval of the iterator task, /repo/model/simple/iteratorbehavior.go:22-151. *)
Definition iter_eval (E : env) (t : nat) : M (err + eval_result) :=
  x <- get_ti t;
  if bool_decide (ti_status x = TSkipped) then ret (inr EvalDone)
  else
    match ti_wd x !! "_iterator" with
    | Some (WIter it) => iter_step E t it
    | Some _ => panic "interface conversion"
    | None =>
        match t_loop (ti_task x) with
        | None => ret (inr EvalDone)
        | Some c =>
            v <- iterate_on E t c;
            match v with
            | inl e => ret (inl e)
            | inr VNil => ret (inr EvalDone)
            | inr v =>
                match make_iter E v with
                | None => ret (inl (EOther ("iterator '" +:+ t_name (ti_task x) +:+ "' not properly configured")))
                | Some it =>
                    set_wd t "_iterator" (WIter it) ;;
                    set_wd t "iteration" (WIteration VNil VNil 0) ;;
                    iter_step E t it
                end
            end
        end
    end.

(** PostEval of the iterator task, /repo/model/simple/iteratorbehavior.go:154-174. *)
Definition iter_post (E : env) (t : nat) : M (err + eval_result) :=
  r <- post_eval_activity E t;
  match r with
  | inl e => set_task_status t TFailed ;; ret (inl e)
  | inr _ =>
      set_task_status t TDone ;;
      x <- get_ti t;
      match ti_wd x !! "_iterator" with
      | Some (WIter it) => ret (inr (if iter_has_next it then EvalRepeat else EvalDone))
      | _ => panic "interface conversion"
      end
  end.

(** initIndex, /repo/model/simple/dowhilebehavior.go:118-124. *)
Definition init_index (t : nat) : M unit :=
  x <- get_ti t;
  match ti_wd x !! "iteration" with
  | None => set_wd t "iteration" (WDoWhile 0)
  | Some w => set_wd t "iteration" w
  end.

(** updateDoWhileIndex, /repo/model/simple/dowhilebehavior.go:108-116. *)
Definition update_index (t : nat) : M unit :=
  x <- get_ti t;
  match ti_wd x !! "iteration" with
  | None => set_wd t "iteration" (WDoWhile 1)
  | Some (WDoWhile n) => set_wd t "iteration" (WDoWhile (n + 1))
  | Some _ => panic "interface conversion"
  end.

(** checkDoWhileCondition and evaluateCondition, /repo/model/simple/dowhilebehavior.go:71-99; a
    result that is not a bool panics (87). *)
Definition check_cond (E : env) (t : nat) : M (err + eval_result) :=
  x <- get_ti t;
  match t_loop (ti_task x) with
  | Some (mk_loop (Some src) _ _ _ _) =>
      r <- ext t (fun n v => e_cond E n v src);
      match r with
      | XOk v =>
          log_ev (EvCond (ti_inst x) (t_id (ti_task x)) (ti_wd x !! "iteration") v) ;;
          match v with
          | VBool true => ret (inr EvalRepeat)
          | VBool false => ret (inr EvalDone)
          | _ => panic "interface conversion"
          end
      | XErr e => ret (inl e)
      | XPanic m => panic m
      end
  | _ => ret (inr EvalDone)
  end.

(** Eval of the doWhile task, /repo/model/simple/dowhilebehavior.go:24-51. *)
Definition dw_eval (E : env) (t : nat) : M (err + eval_result) :=
  x <- get_ti t;
  if bool_decide (ti_status x = TSkipped) then ret (inr EvalDone)
  else
    init_index t ;;
    r <- eval_retry E t;
    match r with
    | inl e => set_task_status t TFailed ;; ret (inl e)
    | inr false => set_task_status t TWaiting ;; ret (inr EvalWait)
    | inr true => finally (check_cond E t) (update_index t)
    end.

(** PostEval of the doWhile task, /repo/model/simple/dowhilebehavior.go:54-69. *)
Definition dw_post (E : env) (t : nat) : M (err + eval_result) :=
  init_index t ;;
  r <- post_eval_activity E t;
  match r with
  | inl e => set_task_status t TFailed ;; ret (inl e)
  | inr _ => set_task_status t TDone ;; finally (check_cond E t) (update_index t)
  end.

(** The behaviour chosen by task type, /repo/instance/ind_instance.go:317-321,
    /repo/model/simple/model.go:15-22. *)
Definition beh_eval (E : env) (ty : tasktype) (t : nat) : M (err + eval_result) :=
  match ty with TBasic => basic_eval E t | TIterator => iter_eval E t | TDoWhile => dw_eval E t end.
(** PostEval chosen by task type, likewise (/repo/instance/ind_instance.go:427-428). *)
Definition beh_post (E : env) (ty : tasktype) (t : nat) : M (err + eval_result) :=
  match ty with TBasic => basic_post E t | TIterator => iter_post E t | TDoWhile => dw_post E t end.

(** ** Steps *)

(** handleTaskDone as called by execTask, /repo/instance/ind_instance.go:443-449. *)
Definition task_done (E : env) (t : nat) : M unit := handle_task_done E (enter_top E) t.
(** HandleGlobalError as called by execTask, /repo/instance/ind_instance.go:418, 666-717. *)
Definition global_error (E : env) (i : nat) (e : err) : M unit :=
  handle_global_error E (enter_top E) i e.

(** The body of execTask, /repo/instance/ind_instance.go:424-467. *)
Definition exec_body (E : env) (t : nat) : M unit :=
  x <- get_ti t;
  let ty := t_type (ti_task x) in
  if bool_decide (ti_status x = TSkipped \/ ti_status x = TDone) then ret tt
  else
    r <- (if bool_decide (ti_status x = TWaiting) then beh_post E ty t else beh_eval E ty t);
    match r with
    | inl e => handle_task_error E t e
    | inr EvalDone | inr EvalSkip => task_done E t
    | inr EvalWait => set_task_status t TWaiting
    | inr EvalFail => set_task_status t TFailed
    | inr EvalRepeat => track_task t ;; schedule_eval t
    end.

(** The deferred recover of execTask, /repo/instance/ind_instance.go:403-422. *)
Definition exec_recover (E : env) (t : nat) (m : string) : M unit :=
  x <- get_ti t;
  y <- get_inst (ti_inst x);
  let txt := "unhandled Error executing task '" +:+ t_id (ti_task x) +:+ "' : " +:+ m in
  if i_handling y then ret tt
  else
    append_error_data E t (EEval (t_name (ti_task x)) "unhandled" txt) ;;
    global_error E (ti_inst x) (EOther txt).

(** execTask, /repo/instance/ind_instance.go:401-468. *)
Definition exec_task (E : env) (t : nat) : M unit := catch (exec_body E t) (exec_recover E t).

(** DoStep, /repo/instance/ind_instance.go:298-336. *)
Definition do_step (E : env) : M bool :=
  modify (fun s => set_s_step (S (s_step s)) s) ;;
  x <- get_inst 0%nat;
  if bool_decide (i_status x = FActive) then
    s <- get;
    match s_queue s with
    | [] => ret false
    | (w, t) :: q =>
        y <- get_ti t;
        modify (set_s_queue q) ;;
        log_ev (EvQDel w (ti_inst y) (t_id (ti_task y))) ;;
        exec_task E t ;;
        ret true
    end
  else ret false.

(** NewIndependentInstance, /repo/instance/ind_instance.go:57-93. *)
Definition init_st (d : defn) (uri : string) : st :=
  mk_st {[ 0%nat := mk_inst None false FNotStarted d uri ∅ ∅ false None None ∅ false ]}
    ∅ 0%nat [] 0%nat 0%nat ∅ 0%nat 0%nat false [EvFlowCreated].

(** Start, /repo/instance/ind_instance.go:161-163. *)
Definition start (E : env) (attrs : vmap) : M unit := start_instance E 0%nat attrs.
