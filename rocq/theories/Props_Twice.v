(** A subflow that fails twice. *)
From Verif Require Import Examples15.
Local Open Scope Z_scope.

(** C21: the task that started a subflow is to fail once, with the error of the subflow. If two tasks of the subflow fail, the task is queued twice: the first
    time it fails and its error link is followed; the second time its activity is evaluated again although the task has failed already, and starts the subflow
    a second time. In the first case the main flow completes while the second subflow is still active. In the second case the task behind the error link waits,
    so the flow does not complete: the subflow is started again and again until the step limit is reached, although neither flow has a loop. *)
Theorem C21_twice_refuted :
  (exists E d uri ins, built d /\ acyclic d /\ built_env E /\ SpecSub.recordable E /\ e_conc E = false /\
    let s := (run_flow E (ro_lim 20) d uri ins).2 in
    (run_flow E (ro_lim 20) d uri ins).1 = Ok tt /\ evaluations s = [(0, "a"); (1, "x"); (1, "y"); (0, "a"); (0, "c")]%nat /\ main_status s = Some FCompleted /\
    delivered s = [(None, None)] /\ statuses 1 s = [FActive; FFailed; FFailed] /\ statuses 2 s = [FActive] /\ length (s_queue s) = 2%nat) /\
  (exists E d uri ins, built d /\ acyclic d /\ built_env E /\ SpecSub.recordable E /\ e_conc E = false /\
    let s := (run_flow E (ro_lim 20) d uri ins).2 in
    evaluations s = [(0, "a"); (1, "x"); (1, "y"); (0, "a"); (0, "c"); (2, "x"); (2, "y"); (0, "a"); (0, "c"); (3, "x"); (3, "y"); (0, "a"); (0, "c");
      (4, "x"); (4, "y"); (0, "a")]%nat /\
    main_status s = Some FActive /\ delivered s = [(None, Some (limit_err E (ro_lim 20)))]).
Proof. exact failed_host_again. Qed.
Print Assumptions C21_twice_refuted.
