(** Running a flow action: FlowAction.Run for starting an instance, without concurrent task
    execution. Models /repo/action.go:178-506 (OpStart). *)
From Verif Require Export Engine.
Local Open Scope Z_scope.

(** The options of a run, /repo/instance/exec.go:14-25 and the trigger event id: InitStepId,
    ReturnID, DetachExecution, event id ("" for none), and maxStepCount (/repo/action.go:45). *)
Record run_opts := mk_ro {
  ro_init : Z;
  ro_retid : bool;
  ro_detach : bool;
  ro_event : string;
  ro_max : Z
}.

Section Run_loop_def.
Context (E : env).
(** The loop of Run, /repo/action.go:387-395. [n] is the number of steps left until maxStepCount;
    the result is the final stepCount. *)
Fixpoint run_loop (n : nat) (k : Z) : M Z :=
  match n with
  | O => ret k
  | S n' =>
      x <- get_inst 0;
      if (i_status x <? FCompleted)%Z then
        more <- do_step E;
        (if e_ext E then record_state E else ret tt) ;;
        if more : bool then run_loop n' (k + 1) else ret (k + 1)
      else ret k
  end.
End Run_loop_def.

(** The error of /repo/action.go:397. *)
Definition limit_err (E : env) (ro : run_opts) : err :=
  EOther ("flow instance [" +:+ e_id E +:+ "] failed due to max step count reached").

(** GetFlowState, /repo/instance/ind_instance.go:143-159: what the recorder is given; it computes
    (and caches) the return data. *)
Definition flow_state : M unit := get_return_data 0 ;; ret tt.

(** Call external code that sees only the flow instance (applyAssertionInterceptor evaluates on
    inst.Instance, /repo/action.go:476). *)
Definition ext_flow {A} (f : nat -> view -> A) : M A :=
  n <- tick;
  x <- get_inst 0;
  ret (f n (mk_view 0 "" (i_attrs x) ∅ ∅ ∅ ∅)).

Section Flow_asserts_def.
Context (E : env).
(** The loop over the flow assertions, /repo/action.go:459-501. Result: hasFlowExceptionAssertion. *)
Fixpoint flow_asserts (id : string) (ty : Z) (match_type : bool) (k : nat) (l : list asrt)
    (found : bool) : M bool :=
  match l with
  | [] => ret found
  | a :: r =>
      if negb match_type then
        log_ev (EvAssert id k ARAssertionNotExecuted) ;; flow_asserts id ty match_type (S k) r found
      else if as_empty a then
        log_ev (EvAssert id k ARNotExecuted) ;; flow_asserts id ty match_type (S k) r found
      else
        x <- ext_flow (e_assert E);
        match x with
        | XOk b => log_ev (EvAssert id k (if b then ARPass else ARFail)) ;;
                   flow_asserts id ty match_type (S k) r (orb found (ty =? 2)%Z)
        | XErr _ => log_ev (EvAssert id k ARFail) ;; flow_asserts id ty match_type (S k) r found
        | XPanic m => panic m
        end
  end.
End Flow_asserts_def.

(** applyAssertionInterceptor of the action, /repo/action.go:448-506. *)
Definition apply_flow_asserts (E : env) (ty : Z) : M bool :=
  x <- get_inst 0;
  let id := d_name (i_def x) +:+ "-_flowOutput" in
  match task_icpt E id with
  | None => ret false
  | Some c =>
      log_ev (EvIcpt id 1) ;;
      flow_asserts E id ty (tc_type c =? ty)%Z 0 (tc_asserts c) false
  end.

(** What Run does once the loop has ended, /repo/action.go:396-442. *)
Definition run_finish (E : env) (ro : run_opts) (k : Z) : M unit :=
  x <- get_inst 0;
  if (k =? ro_max ro)%Z && negb (i_status x =? FCompleted)%Z then
    log_ev (EvResult None (Some (limit_err E ro)))
  else
    (if (i_status x =? FCompleted)%Z then
       r <- get_return_data 0;
       (match r.1 with Some d => set_values E 0 d | None => ret tt end) ;;
       apply_flow_asserts E 1 ;;
       log_ev (EvResult r.1 r.2)
     else if (i_status x =? FFailed)%Z then
       b <- apply_flow_asserts E 2;
       (if b : bool then log_ev (EvResult None None) else ret tt) ;;
       y <- get_inst 0;
       log_ev (EvResult None (i_rerr y))
     else ret tt) ;;
    (if e_ext E then flow_state ;; log_ev EvRecDone else ret tt).

(** What the goroutine of Run does before its loop, /repo/action.go:358-386. *)
Definition run_head (E : env) (ro : run_opts) : M unit :=
  (if ro_detach ro then log_ev EvHandlerDone else ret tt) ;;
  (if ro_retid ro then log_ev (EvResult (Some {[ "id" := VStr (e_id E) ]}) None) else ret tt).

(** The goroutine of Run, /repo/action.go:358-443; [defer handler.Done()] (363) also runs when the
    rest panics. *)
Definition run_body (E : env) (ro : run_opts) : M unit :=
  run_head E ro ;;
  finally
    (let k := if (0 <? ro_init ro)%Z then ro_init ro - 1 else 0 in
     k' <- run_loop E (Z.to_nat (ro_max ro - k)) k;
     run_finish E ro k')
    (if ro_detach ro then ret tt else log_ev EvHandlerDone).

(** Run up to the goroutine for OpStart, /repo/action.go:300-356. *)
Definition run_prepare (E : env) (ro : run_opts) (inputs : vmap) : M unit :=
  (if e_ext E then flow_state ;; log_ev EvRecStart else ret tt) ;;
  (if String.eqb (ro_event ro) "" then ret tt
   else set_value E 0 "event.id" (VStr (ro_event ro))) ;;
  start E inputs ;;
  upd_inst 0 (set_i_handler true) ;;
  (if e_ext E then
     if (ro_init ro <=? 0)%Z then record_state E else log_ev EvSkipStep
   else ret tt).

(** FlowAction.Run with OpStart, /repo/action.go:178-446. *)
Definition run_action (E : env) (ro : run_opts) (inputs : vmap) : M unit :=
  run_prepare E ro inputs ;; run_body E ro.

(** Running a definition from scratch: NewIndependentInstance and Run, /repo/action.go:178-446. *)
Definition run_flow (E : env) (ro : run_opts) (d : defn) (uri : string) (inputs : vmap) : out unit * st :=
  run_action E ro inputs (init_st d uri).
