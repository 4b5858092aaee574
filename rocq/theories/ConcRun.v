(** A run of the flow action with concurrent task execution: the loop with its step limit, and what is done once it has ended, while goroutines may still be
    running. Models /repo/action.go:358-443 with the branch for concurrent execution (375-386) and DoStepInLoop,
    /repo/instance/ind_instance.go:338-385. The simplifications of Conc.v apply; what follows the loop (action.go:396-442) is one piece. *)
From Verif Require Export Conc.
Local Open Scope Z_scope.

(** The flow, its goroutines, the count of the loop (/repo/instance/ind_instance.go:340) and whether the loop has ended. *)
Record crun : Type := mk_crun { r_conc : conc; r_count : Z; r_over : bool }.

(** The end of the goroutine of Run, /repo/action.go:363: handler.Done() is called, also after a panic. *)
Definition run_over (ro : run_opts) (m : M unit) : M unit := finally m (if ro_detach ro then ret tt else log_ev EvHandlerDone).

(** One round of the loop, /repo/instance/ind_instance.go:342-384, or what follows it: while the flow is active the next work item is taken from the queue
    (with an empty queue the loop goes round, 345); the limit is tested only then (347), and the error is handed to the caller (/repo/action.go:377-385;
    its second test of the status, 378, is taken to be made at once).
    When the flow is not active any more the loop ends and the result is given (396-442); the test of the limit in 397 belongs to the other branch, so
    [run_finish] is given a count that is not the limit. *)
Definition loop_round (E : env) (ro : run_opts) (r : crun) : crun :=
  let c := r_conc r in
  if r_over r then r
  else match s_insts (c_st c) !! 0%nat with
  | None => r
  | Some y =>
      if bool_decide (i_status y = FActive) then
        match s_queue (c_st c) with
        | [] => r
        | _ :: q =>
            if (ro_max ro <? r_count r)%Z then
              mk_crun (mk_conc (run_over ro (log_ev (EvResult None (Some (limit_err E ro)))) (set_s_queue q (c_st c))).2 (c_threads c) (c_taken c))
                (r_count r) true
            else mk_crun (take_item c) (r_count r + 1) false
        end
      else mk_crun (mk_conc (run_over ro (run_finish E ro (ro_max ro + 1)) (c_st c)).2 (c_threads c) (c_taken c)) (r_count r) true
  end.

(** What happens next, /repo/instance/ind_instance.go:338-385 and /repo/action.go:358-443: a round of the loop (or what follows it), or a piece of a goroutine;
    goroutines are not stopped when the loop ends. *)
Definition crun_step (E : env) (ro : run_opts) (ch : turn) (r : crun) : crun :=
  match ch with
  | Loop => loop_round E ro r
  | Go k => mk_crun (advance E k (r_conc r)) (r_count r) (r_over r)
  end.
(** A run under a schedule, /repo/action.go:358-443. *)
Definition crun_run (E : env) (ro : run_opts) (chs : list turn) (r : crun) : crun := fold_left (fun r ch => crun_step E ro ch r) chs r.
(** Run up to the loop, /repo/action.go:178-374. If starting the flow panics (it returns no error) Run does not get to the loop: what follows is meant for the
    other case, [run_begin] giving [Ok tt]. *)
Definition crun_start (E : env) (ro : run_opts) (d : defn) (uri : string) (ins : vmap) : crun :=
  mk_crun (mk_conc ((run_prepare E ro ins ;; run_head E ro) (init_st d uri)).2 [] []) 0 false.
