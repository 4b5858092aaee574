(** Concurrent execution: the loop of a flow with concurrent task execution, which runs every task it
    takes from the queue on a goroutine of its own.
    Models DoStepInLoop, /repo/instance/ind_instance.go:338-385, with concurrentExec true.

    Simplification: a goroutine proceeds in four pieces, and the pieces of different goroutines
    interleave in any order; within a piece a goroutine is not interrupted. The pieces are the
    evaluation (execTask up to handleTaskDone, with the handling of errors), the part of
    handleTaskDone that decides the links, the call of enterTasks, which holds the lock
    (722-726), and the release of the task. Races between single accesses to a Go map are not modelled. *)
From Verif Require Export RunLoop.
Local Open Scope Z_scope.

(** What is left of handleTaskDone after the links have been decided,
    /repo/instance/ind_instance.go:494-573: nothing, the release of the task (569), or entering the
    tasks and then the release (560-569). *)
Inductive leftover : Type :=
| PEnd
| PRelease
| PEnter (es : list entry).

(** handleTaskDone up to the call of enterTasks, /repo/instance/ind_instance.go:471-559. *)
Definition done_first (E : env) (t : nat) : M leftover :=
  x <- get_ti t;
  let i := ti_inst x in
  r <- (if bool_decide (ti_status x = TSkipped) then
          s <- beh_skip E t; ret (inr (s.1.1, s.1.2))
        else
          d <- beh_done E t;
          add_activity_coverage E t ;;
          ret d);
  match r with
  | inl e =>
      m <- get_inst 0%nat;
      let e' := done_error (t_name (ti_task x)) (d_name (i_def m)) e in
      append_error_data E t e' ;;
      handle_global_error E (enter_top E) i e' ;;
      ret PEnd
  | inr (notify, es) =>
      fd <- (if notify : bool then flow_task_done i else ret false);
      y <- get_inst i;
      (if fd || i_force y then complete_flow E i ;; ret PRelease else ret (PEnter es))
  end.

(** What a goroutine has still to do for task instance [t]. [ThStuck]: it waits for a lock that it
    holds itself (/repo/instance/ind_instance.go:722-726); [ThCrash]: the deferred recover of execTask
    panicked (403-422), or the recursion bound of the model was reached. *)
Inductive thread : Type :=
| ThEval (w t : nat)
| ThDone (t : nat)
| ThEnter (t : nat) (es : list entry)
| ThRelease (t : nat)
| ThEnd
| ThStuck
| ThCrash.

(** execTask up to the call of handleTaskDone, /repo/instance/ind_instance.go:424-467. *)
Definition exec_first (E : env) (t : nat) : M thread :=
  x <- get_ti t;
  let ty := t_type (ti_task x) in
  if bool_decide (ti_status x = TSkipped \/ ti_status x = TDone) then ret ThEnd
  else
    r <- (if bool_decide (ti_status x = TWaiting) then beh_post E ty t else beh_eval E ty t);
    match r with
    | inl e => handle_task_error E t e ;; ret ThEnd
    | inr EvalDone | inr EvalSkip => ret (ThDone t)
    | inr EvalWait => set_task_status t TWaiting ;; ret ThEnd
    | inr EvalFail => set_task_status t TFailed ;; ret ThEnd
    | inr EvalRepeat => track_task t ;; schedule_eval t ;; ret ThEnd
    end.

(** The next piece of a goroutine, /repo/instance/ind_instance.go:355-369 (the removal of the work
    item is logged by the goroutine) and 401-468; a panic ends in the deferred recover of execTask
    (403-422). *)
Definition piece (E : env) (th : thread) : M thread :=
  let run t (m : M thread) := catch m (fun msg => exec_recover E t msg ;; ret ThEnd) in
  match th with
  | ThEval w t =>
      y <- get_ti t;
      log_ev (EvQDel w (ti_inst y) (t_id (ti_task y))) ;;
      run t (exec_first E t)
  | ThDone t =>
      run t (p <- done_first E t;
             ret (match p with PEnd => ThEnd | PRelease => ThRelease t | PEnter es => ThEnter t es end))
  | ThEnter t es => run t (x <- get_ti t; enter_top E (ti_inst x) es ;; ret (ThRelease t))
  | ThRelease t => run t (x <- get_ti t; release_task (ti_inst x) (ti_task x) ;; ret ThEnd)
  | ThEnd => ret ThEnd
  | ThStuck => ret ThStuck
  | ThCrash => ret ThCrash
  end.

(** The flow, the goroutines and the work items taken from the queue so far (the latter is not in
    the Go code), /repo/instance/ind_instance.go:338-385. *)
Record conc : Type := mk_conc { c_st : st; c_threads : list thread; c_taken : list (nat * nat) }.

(** How the goroutine stands after a piece, /repo/instance/ind_instance.go:355-369. *)
Definition after_piece (o : out thread) : thread :=
  match o with Ok th => th | Blocked => ThStuck | Panic _ | Fuel => ThCrash end.

(** One piece of goroutine [k], /repo/instance/ind_instance.go:355-369. *)
Definition advance (E : env) (k : nat) (c : conc) : conc :=
  match c_threads c !! k with
  | None => c
  | Some th =>
      let (o, s') := piece E th (c_st c) in
      mk_conc s' (<[k := after_piece o]> (c_threads c)) (c_taken c)
  end.

(** One round of the loop, /repo/instance/ind_instance.go:342-369: while the flow is active, take the
    first item of the queue and start a goroutine for it (without the step limit, 347-349; with it: [loop_round] in
    ConcRun.v). *)
Definition take_item (c : conc) : conc :=
  match s_insts (c_st c) !! 0%nat with
  | Some y =>
      if bool_decide (i_status y = FActive) then
        match s_queue (c_st c) with
        | [] => c
        | (w, t) :: q =>
            mk_conc (set_s_step (S (s_step (c_st c))) (set_s_queue q (c_st c)))
              (c_threads c ++ [ThEval w t]) (c_taken c ++ [(w, t)])
        end
      else c
  | None => c
  end.

(** A choice of the scheduler: a round of the loop or a piece of a goroutine, /repo/instance/ind_instance.go:338-385, 355-369. *)
Inductive turn : Type := Loop | Go (k : nat).
(** What happens next, /repo/instance/ind_instance.go:338-385. *)
Definition conc_step (E : env) (ch : turn) (c : conc) : conc :=
  match ch with Loop => take_item c | Go k => advance E k c end.
(** A run under a schedule, /repo/instance/ind_instance.go:338-385. *)
Definition conc_run (E : env) (chs : list turn) (c : conc) : conc :=
  fold_left (fun c ch => conc_step E ch c) chs c.

(** A flow just started, /repo/action.go:346-425 with instance/ind_instance.go:161-163. *)
Definition conc_start (E : env) (d : defn) (uri : string) (ins : vmap) : conc :=
  mk_conc (start E ins (init_st d uri)).2 [] [].
