(** Running a flow that comes with the request: the on-demand action, /repo/ondemand/action.go, without concurrent task
    execution. *)
From Verif Require Export RunLoop.
Local Open Scope Z_scope.

(** The instance has no instance recorder (NewIndependentInstance is given nil, /repo/ondemand/action.go:208), there is no
    interceptor, and no state is recorded (the calls are commented out, 248-251). *)
Definition od_env (E : env) : env := set_e_icpt None (set_e_rec None (set_e_ext false E)).

(** The value of "id" in the first result, /repo/ondemand/action.go:231: the method inst.ID itself (it is not called), a Go
    function. *)
Definition id_method : val := VOther 0.

Section Od_loop_def.
Context (E : env).
(** The loop, /repo/ondemand/action.go:243-252. [n] is the number of steps left until maxStepCount (60, the one of
    /repo/action.go:45); the result is the final stepCount. *)
Fixpoint od_loop (n : nat) (k : Z) : M Z :=
  match n with
  | O => ret k
  | S n' =>
      x <- get_inst 0;
      if (i_status x <? FCompleted)%Z then
        more <- do_step E;
        if more : bool then od_loop n' (k + 1) else ret (k + 1)
      else ret k
  end.
End Od_loop_def.

(** What is done once the loop has ended, /repo/ondemand/action.go:253-265: after the message about the limit the function
    goes on (there is no return). *)
Definition od_finish (E : env) (mx : Z) (k : Z) : M unit :=
  x <- get_inst 0;
  (if (k =? mx)%Z && negb (i_status x =? FCompleted)%Z
   then log_ev (EvResult None (Some (limit_err E (mk_ro 0 false false "" mx)))) else ret tt) ;;
  if (i_status x =? FCompleted)%Z then
    r <- get_return_data 0;
    log_ev (EvResult r.1 r.2)
  else if (i_status x =? FFailed)%Z then
    y <- get_inst 0;
    log_ev (EvResult None (i_rerr y))
  else ret tt.

(** Run once the instance has been created, /repo/ondemand/action.go:216-274: Start, then the goroutine. *)
Definition od_run (E : env) (mx : Z) (inputs : vmap) : M unit :=
  start E inputs ;;
  upd_inst 0 (set_i_handler true) ;;
  x <- get_inst 0;
  (if d_reply (i_def x) then ret tt else log_ev (EvResult (Some {[ "id" := id_method ]}) None)) ;;
  finally (k <- od_loop E (Z.to_nat mx) 0; od_finish E mx k) (log_ev EvHandlerDone).

(** ApplyMappings, /repo/ondemand/action.go:279-293: the error of the mapper is ignored (290), its result is then nil. *)
Definition od_inputs (r : xres vmap) : vmap := match r with XOk m => m | XErr _ | XPanic _ => ∅ end.

(** A flow that has been built and whose inputs have been mapped, /repo/ondemand/action.go:205-274; the instance has no
    URI (208). *)
Definition on_demand (E : env) (mx : Z) (d : defn) (ins : vmap) : out unit * st :=
  od_run (od_env E) mx ins (init_st d "").

(** How a request ends, /repo/ondemand/action.go:172-277: an error is returned to the caller, Run panics before there is an instance, or
    a flow was run. *)
Inductive od_outcome : Type :=
| OdRefused (msg : string)
| OdPanic (msg : string)
| OdRan (o : out unit) (s : st).

(** Run, /repo/ondemand/action.go:172-277. [pkg]: the flow of the package, if there is one (its JSON text has been read); [mapped]: what
    the mapper of the inputs gives, if it can be built. The output mappings of the package are not used (they are only logged, 192). *)
Definition od_action (E : env) (b : benv) (mx : Z) (pkg : option def_rep) (mapped : option (xres vmap)) : od_outcome :=
  match pkg with
  | None => OdRefused "flow package not provided"
  | Some r =>
      match new_definition b r with
      | BErr e => OdRefused e
      | BOk d =>
          match mapped with
          | None => OdRefused "mapper"
          | Some (XPanic e) => OdPanic e
          | Some m => let r := on_demand E mx d (od_inputs m) in OdRan r.1 r.2
          end
      end
  end.
