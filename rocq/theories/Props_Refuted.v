(** Properties the code does not have. Each theorem exhibits a concrete flow and environment, found
    while proving the property; the strongest true variant is proved in the other Props files. *)
From Verif Require Import Findings.
Local Open Scope Z_scope.

(** C02 in full generality is false: in an acyclic flow without parallel links, made of plain tasks
    with activities that finish in their call, a task can be evaluated twice. The flow has a shortcut
    past a task that is skipped; the shortcut is listed after the link to that task. *)
Theorem C02_refuted :
  exists E d uri ins n, built d /\ acyclic d /\ no_parallel d /\ plain_tasks d /\ d_eh d = None /\
    sync_env false E /\ links_ok E /\ settings_ok E /\ mappers_ok E /\ e_icpt E = None /\ e_conc E = false /\
    ~ NoDup (evaluations (after E n (started E d uri ins))).
Proof. exact shortcut_evaluates_twice. Qed.
Print Assumptions C02_refuted.

(** C03 in full generality is false: an acyclic flow without parallel links, all of whose activities
    succeed, never completes. Same shape as above. *)
Theorem C03_refuted :
  exists E d uri ins, built d /\ acyclic d /\ no_parallel d /\ plain_tasks d /\ d_tasks d <> [] /\
    d_eh d = None /\ sync_env true E /\ links_ok E /\ settings_ok E /\ mappers_ok E /\
    e_icpt E = None /\ e_conc E = false /\
    forall n, main_status (after E n (started E d uri ins)) <> Some FCompleted.
Proof. exact shortcut_stalls. Qed.
Print Assumptions C03_refuted.

(** C12: a flow whose error handler fails too ends Failed, but the caller gets neither data nor
    error. *)
Theorem C12_refuted :
  exists E ro d uri ins, built d /\ sync_env false E /\
    main_status (run_flow E ro d uri ins).2 = Some FFailed /\
    delivered (run_flow E ro d uri ins).2 = [(None, None)].
Proof. exact failed_without_error. Qed.
Print Assumptions C12_refuted.

(** C16: an iterator over two elements and a doWhile whose condition is always true evaluate a
    subflow activity once and then never again; the flow never completes. *)
Theorem C16_refuted :
  (exists E d uri ins, built d /\ built_env E /\
    (exists tk c, d_tasks d = [tk] ++ tail (d_tasks d) /\ t_type tk = TIterator /\ t_loop tk = Some c /\
       lc_iter c = Some (IOVal (VInt 2))) /\
    (forall n, evaluations (after E (4 + n) (started E d uri ins)) = [(0%nat, "a"); (1%nat, "x")]) /\
    forall n, main_status (after E n (started E d uri ins)) <> Some FCompleted) /\
  (exists E d uri ins, built d /\ built_env E /\
    (exists tk, d_tasks d = [tk] ++ tail (d_tasks d) /\ t_type tk = TDoWhile) /\
    (forall n v src, e_cond E n v src = XOk (VBool true)) /\
    (forall n, evaluations (after E (4 + n) (started E d uri ins)) = [(0%nat, "a"); (1%nat, "x")])).
Proof. exact loop_over_subflow_stalls. Qed.
Print Assumptions C16_refuted.

(** C33: with concurrent task execution, finishing a task whose successor is skipped waits for the
    lock this goroutine already holds. *)
Theorem C33_refuted :
  exists E d uri ins, built d /\ acyclic d /\ no_parallel d /\ plain_tasks d /\ sync_env true E /\ links_ok E /\
    e_conc E = true /\ s_lock (started E d uri ins) = false /\
    (do_step E (started E d uri ins)).1 = Blocked.
Proof. exact skip_blocks. Qed.
Print Assumptions C33_refuted.

(** C37: with two links between the same tasks a flow may never complete, and a task may be evaluated
    twice. *)
Theorem C37_refuted :
  (exists E d uri ins, built d /\ acyclic d /\ plain_tasks d /\ sync_env true E /\ links_ok E /\
     settings_ok E /\ mappers_ok E /\ e_icpt E = None /\ e_conc E = false /\
     forall n, main_status (after E n (started E d uri ins)) <> Some FCompleted) /\
  (exists E d uri ins n, built d /\ acyclic d /\ plain_tasks d /\ sync_env false E /\ links_ok E /\
     settings_ok E /\ mappers_ok E /\ e_icpt E = None /\ e_conc E = false /\
     evaluations (after E n (started E d uri ins)) = [(0%nat, "a"); (0%nat, "b"); (0%nat, "b"); (0%nat, "c")]).
Proof. exact parallel_links_break. Qed.
Print Assumptions C37_refuted.

(** C39: an expression that panics is taken as false: the otherwise branch runs and the flow
    completes, although an error handler is present. *)
Theorem C39_refuted :
  exists E d uri ins n,
    built d /\
    (forall k v l, l ∈ d_links d -> l_type l = LtExpression -> exists m, e_link E k v l = XPanic m) /\
    evaluations (after E n (started E d uri ins)) = [(0%nat, "a"); (0%nat, "c")] /\
    main_status (after E n (started E d uri ins)) = Some FCompleted.
Proof. exact panic_follows_otherwise. Qed.
Print Assumptions C39_refuted.

(** C40: an error while resolving the settings of a task that is entered is dropped: the flow stays
    active for ever, delivers nothing and does not run its error handler. *)
Theorem C40_refuted :
  exists E d uri ins e, built d /\ (forall n v, e_setmap E n v = XErr e) /\ sync_env true E /\
    (exists tk, tk ∈ d_tasks d /\ t_set tk = true) /\ d_eh d <> None /\
    forall n, main_status (after E n (started E d uri ins)) = Some FActive /\
              delivered (after E n (started E d uri ins)) = [] /\
              (0%nat, "h") ∉ evaluations (after E n (started E d uri ins)).
Proof. exact settings_error_lost. Qed.
Print Assumptions C40_refuted.
