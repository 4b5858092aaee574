(** More properties the code does not have; see Props_Refuted.v. *)
From Verif Require Import Findings2.
Local Open Scope Z_scope.

(** C07: a flow of a task with two successors that are skipped is announced completed and then
    failed: the first skipped task completes it, entering the second one (which has no activity)
    panics. *)
Theorem C07_refuted :
  exists E ro d uri ins, built d /\ acyclic d /\ no_parallel d /\ sync_env true E /\ links_ok E /\ settings_ok E /\ mappers_ok E /\
    e_icpt E = None /\ e_conc E = false /\
    statuses 0 (run_flow E ro d uri ins).2 = [FActive; FCompleted; FFailed].
Proof. exact completed_then_failed. Qed.
Print Assumptions C07_refuted.

(** C08: a flow is completed by a skipped end task although another task of it stays entered. *)
Theorem C08_refuted :
  exists E ro d uri ins, built d /\ no_parallel d /\ plain_tasks d /\ d_eh d = None /\
    sync_env true E /\ links_ok E /\ settings_ok E /\ mappers_ok E /\ e_icpt E = None /\ e_conc E = false /\
    main_status (run_flow E ro d uri ins).2 = Some FCompleted /\
    exists y t x, s_insts (run_flow E ro d uri ins).2 !! 0%nat = Some y /\ i_tasks y !! "b" = Some t /\
      s_tis (run_flow E ro d uri ins).2 !! t = Some x /\ ti_status x = TEntered.
Proof. exact completed_with_entered. Qed.
Print Assumptions C08_refuted.

(** C10: if the initial step is behind the limit, the run neither steps nor delivers anything. *)
Theorem C10_refuted :
  exists E ro d uri ins, built d /\ sync_env true E /\ ro_max ro < first_count ro /\
    (run_flow E ro d uri ins).1 = Ok tt /\ main_status (run_flow E ro d uri ins).2 = Some FActive /\
    delivered (run_flow E ro d uri ins).2 = [].
Proof. exact offset_behind_limit. Qed.
Print Assumptions C10_refuted.

(** C20: a subflow that completes without Return has return data (its declared outputs), but the
    outputs of its host are empty; with a flow event listener they are not. *)
Theorem C20_refuted :
  exists E ro d uri ins sub, built d /\ built sub /\ (forall n u, e_def E n u = DOk sub) /\
    statuses 1 (run_flow E ro d uri ins).2 = [FActive; FCompleted] /\
    result_data <$> s_insts (run_flow E ro d uri ins).2 !! 1%nat = Some (Some {[ "o" := VInt 7 ]}) /\
    (i_attrs <$> s_insts (run_flow E ro d uri ins).2 !! 0%nat) ≫= lookup "_A.a.o" = None /\
    (i_attrs <$> s_insts (run_flow (set_e_listener true E) ro d uri ins).2 !! 0%nat) ≫= lookup "_A.a.o" = Some (VInt 7).
Proof. exact subflow_outputs_lost. Qed.
Print Assumptions C20_refuted.

(** C21: the error of a subflow is lost if another branch of the subflow finishes after the failure,
    and if the subflow returns it with Return. *)
Theorem C21_refuted :
  (exists E ro d uri ins, built d /\ d_eh d = None /\ built_env E /\
    statuses 1 (run_flow E ro d uri ins).2 = [FActive; FFailed; FCompleted] /\
    evaluations (run_flow E ro d uri ins).2 = [(0, "a"); (1, "x"); (1, "y"); (1, "z"); (0, "b")]%nat /\
    main_status (run_flow E ro d uri ins).2 = Some FCompleted /\ delivered (run_flow E ro d uri ins).2 = [(None, None)]) /\
  (exists E ro d uri ins e, built d /\ d_eh d = None /\ built_env E /\
    i_rerr <$> s_insts (run_flow E ro d uri ins).2 !! 1%nat = Some (Some e) /\
    evaluations (run_flow E ro d uri ins).2 = [(0, "a"); (1, "x"); (0, "b")]%nat /\
    main_status (run_flow E ro d uri ins).2 = Some FCompleted /\ delivered (run_flow E ro d uri ins).2 = [(None, None)]).
Proof. exact subflow_error_lost. Qed.
Print Assumptions C21_refuted.

(** C22: when a subflow handles an error, the task table of the main flow is emptied; the main flow
    then completes while one of its tasks still waits for another subflow. *)
Theorem C22_refuted :
  exists E d uri ins, built d /\ d_eh d = None /\ built_env E /\
    let s n := after E n (started E d uri ins) in
    table (s 2%nat) = [("a", TWaiting); ("w", TWaiting)] /\
    (exists w, executed (s 3%nat) = executed (s 2%nat) ++ [(w, 1, "x")]%nat) /\ table (s 3%nat) = [] /\
    main_status (s 7%nat) = Some FCompleted /\ (2%nat, "s4") ∉ evaluations (s 7%nat) /\
    ti_status <$> s_tis (s 7%nat) !! 1%nat = Some TWaiting.
Proof. exact handler_disturbs_parent. Qed.
Print Assumptions C22_refuted.

(** C24: output "b.o" of task "a" and output "o" of task "a.b" are stored under the same name. *)
Theorem C24_refuted :
  exists E d uri ins, built d /\ acyclic d /\ no_parallel d /\ plain_tasks d /\ sync_env true E /\
    let get n := (i_attrs <$> s_insts (after E n (started E d uri ins)) !! 0%nat) ≫= lookup "_A.a.b.o" in
    get 1%nat = Some (VStr "a") /\ get 2%nat = Some (VStr "a.b").
Proof. exact names_collide. Qed.
Print Assumptions C24_refuted.

(** C31: with a state recorder or a flow event listener a flow returns other data. *)
Theorem C31_refuted :
  exists E ro d uri ins, built d /\ sync_env true E /\
    delivered (run_flow E ro d uri ins).2 = [(Some {[ "r" := VInt 5 ]}, None)] /\
    delivered (run_flow (set_e_ext true E) ro d uri ins).2 = [(Some ∅, None)] /\
    delivered (run_flow (set_e_listener true E) ro d uri ins).2 = [(Some ∅, None)].
Proof. exact observer_changes_result. Qed.
Print Assumptions C31_refuted.

(** C36: the skip propagation setting never has any effect. *)
Theorem C36_refuted : forall E b ro d uri ins,
  run_flow (set_e_propskip b E) ro d uri ins = run_flow E ro d uri ins.
Proof. exact setting_without_effect. Qed.
Print Assumptions C36_refuted.
