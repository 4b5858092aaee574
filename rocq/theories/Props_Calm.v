(** Panics of activities, mappers and expressions do not crash the engine. *)
From Verif Require Import Examples10.
Local Open Scope Z_scope.

(** C47: whatever panics while a task is evaluated, the step does not: the panic is caught and handled as an error. Task ids are used once in each
    flow, the tasks error handlers start with have an activity, and settings mappers do not panic. *)
Theorem C47_step : forall E d uri s,
  NoDup (t_id <$> all_tasks d) -> (forall n u d', e_def E n u = DOk d' -> NoDup (t_id <$> all_tasks d')) ->
  handler_acting d -> (forall n u d', e_def E n u = DOk d' -> handler_acting d') ->
  settings_calm E -> SpecSub.recordable E ->
  running E d uri s -> forall m, (do_step E s).1 <> Panic m.
Proof. intros E d uri s Nd NE Ha HaE Hc Hr R m. exact (calm_step E d uri Nd NE Ha HaE Hc Hr s m R). Qed.
Print Assumptions C47_step.

(** C47: a whole run of a flow, one task at a time, ends normally: no panic, no endless recursion, no wait for a lock. *)
Theorem C47_run : forall E ro d uri ins,
  built d -> built_env E ->
  NoDup (t_id <$> all_tasks d) -> (forall n u d', e_def E n u = DOk d' -> NoDup (t_id <$> all_tasks d')) ->
  starts_acting (d_tasks d) -> handler_acting d -> (forall n u d', e_def E n u = DOk d' -> handler_acting d') ->
  settings_calm E -> asserts_calm E -> SpecSub.recordable E -> e_conc E = false ->
  (run_flow E ro d uri ins).1 = Ok tt.
Proof. intros E ro d uri ins Hb HE Nd NE Hm Ha HaE Hc As Hr NC. exact (run_ok E d uri Nd NE Ha HaE Hc Hr Hb HE Hm As NC ro ins). Qed.
Print Assumptions C47_run.

(** An activity panics: the error handler runs and the flow completes. *)
Example C47_handler_example :
  let E := env0 (act_boom ["a"]) in
  built boom_eh /\ built_env E /\ NoDup (t_id <$> all_tasks boom_eh) /\ starts_acting (d_tasks boom_eh) /\ handler_acting boom_eh /\
  settings_calm E /\ asserts_calm E /\ SpecSub.recordable E /\ e_conc E = false /\
  (run_flow E ro0 boom_eh "u" ∅).1 = Ok tt /\ evaluations (run_flow E ro0 boom_eh "u" ∅).2 = [(0, "a"); (0, "h")]%nat /\
  main_status (run_flow E ro0 boom_eh "u" ∅).2 = Some FCompleted.
Proof.
  cbv zeta. destruct (all_acting boom_eh) as [H1 H2]; [ev|]. split; [apply flow_of_built; ev|]. split; [done|]. split; [apply (bool_decide_unpack _); ev|].
  split; [done|]. split; [done|]. split; [done|]. split; [done|]. split; [apply env0_recordable|]. split; [done|]. split_and!; ev.
Qed.
(** The expression of an iterator panics, which the task does not catch itself: the error handler runs. *)
Example C47_iterator_example :
  let E := env_iter_boom in
  built boom_iter /\ built_env E /\ NoDup (t_id <$> all_tasks boom_iter) /\ starts_acting (d_tasks boom_iter) /\ handler_acting boom_iter /\
  settings_calm E /\ asserts_calm E /\ SpecSub.recordable E /\ e_conc E = false /\
  (exec_body E 1 (do_step E (started E boom_iter "u" ∅)).2).1 = Panic "boom" /\
  (run_flow E ro0 boom_iter "u" ∅).1 = Ok tt /\ evaluations (run_flow E ro0 boom_iter "u" ∅).2 = [(0, "a"); (0, "h")]%nat /\
  main_status (run_flow E ro0 boom_iter "u" ∅).2 = Some FCompleted.
Proof.
  cbv zeta. destruct (all_acting boom_iter) as [H1 H2]; [ev|]. split; [apply flow_of_built; ev|]. split; [done|]. split; [apply (bool_decide_unpack _); ev|].
  split; [done|]. split; [done|]. split; [done|]. split; [done|]. split; [exists RMOff; split; [done|by right]|]. split; [done|].
  split; [ev|]. split; [ev|]. split; [ev|]. ev.
Qed.
(** Without an error handler the flow fails. *)
Example C47_step_example :
  let E := env0 (act_boom ["a"]) in let s := started E boom_no "u" ∅ in
  NoDup (t_id <$> all_tasks boom_no) /\ handler_acting boom_no /\ settings_calm E /\ SpecSub.recordable E /\ running E boom_no "u" s /\
  (do_step E s).1 = Ok true /\ main_status (do_step E s).2 = Some FFailed.
Proof.
  cbv zeta. destruct (all_acting boom_no) as [_ H]; [ev|]. split; [apply (bool_decide_unpack _); ev|]. split; [done|]. split; [done|].
  split; [apply env0_recordable|]. split; [constructor|]. split; ev.
Qed.
(** A panic in a subflow makes the task that started it fail, and with it the flow. *)
Example C47_subflow_example :
  let E := env_sub_boom in
  built_env E /\ (forall n u d', e_def E n u = DOk d' -> NoDup (t_id <$> all_tasks d') /\ handler_acting d') /\ SpecSub.recordable E /\
  (run_flow E ro0 host_flow "u" ∅).1 = Ok tt /\ main_status (run_flow E ro0 host_flow "u" ∅).2 = Some FFailed /\
  (1%nat, "x") ∈ evaluations (run_flow E ro0 host_flow "u" ∅).2.
Proof.
  cbv zeta. split; [exact env_sub_built|]. split.
  { intros n u d' H. cbn in H. injection H as <-. match goal with |- _ /\ handler_acting ?D => destruct (all_acting D) as [_ A]; [ev|] end.
    split; [apply (bool_decide_unpack _); ev|done]. }
  split; [exists RMOff; split; [done|by right]|]. split; [ev|]. split; [ev|]. apply (bool_decide_unpack _). ev.
Qed.

(** C47: a panic in a task of the main flow, which has no error handler (nor one running): the step leaves the flow failed, with an error that tells the
    task and the panic. *)
Theorem C47_fails : forall E d uri s t x m s1 y1,
  running E d uri s -> panics E s t x m s1 -> ti_inst x = 0%nat -> s_insts s1 !! 0%nat = Some y1 ->
  i_handling y1 = false -> d_eh d = None ->
  exists y', s_insts (do_step E s).2 !! 0%nat = Some y' /\ i_status y' = FFailed /\
    i_rerr y' = Some (EOther ("unhandled Error executing task '" +:+ t_id (ti_task x) +:+ "' : " +:+ m)).
Proof. exact panic_fails. Qed.
Print Assumptions C47_fails.
Example C47_fails_example :
  let E := env_iter_boom in let s := after E 1 (started E iter_no "u" ∅) in
  running E iter_no "u" s /\ d_eh iter_no = None /\
  exists t x s1 y1, panics E s t x "boom" s1 /\ ti_inst x = 0%nat /\ t_id (ti_task x) = "it" /\ s_insts s1 !! 0%nat = Some y1 /\ i_handling y1 = false.
Proof.
  cbv zeta. set (E := env_iter_boom). set (s := after _ _ _). split; [apply started_running|]. split; [ev|].
  destruct (panic_check E s (fun t x m s1 => bool_decide (m = "boom" /\ ti_inst x = 0%nat /\ t_id (ti_task x) = "it") &&
    match s_insts s1 !! 0%nat with Some y => negb (i_handling y) | None => false end)) as (t & x & m & s1 & P & H); [ev|].
  apply andb_prop in H as [H H']. apply bool_decide_eq_true in H as (-> & H2 & H3). destruct (s_insts s1 !! 0%nat) as [y1|] eqn:Hy; [|done].
  exists t, x, s1, y1. split_and!; [done..|]. by destruct (i_handling y1).
Qed.

(** C47: with an error handler that has not been started, the handler takes over: the flow stays active, the start tasks of the handler are queued
    behind all work that was queued, they are the only tasks the flow knows, all ready, and the error attributes describe the panic. *)
Theorem C47_handled : forall E d uri s t x m s1 y1 h,
  running E d uri s -> built d -> settings_ok E -> e_conc E = false -> handler_acting d ->
  panics E s t x m s1 -> ti_inst x = 0%nat -> s_insts s1 !! 0%nat = Some y1 -> i_status y1 = FActive -> i_handling y1 = false -> d_eh d = Some h ->
  let e := EEval (t_name (ti_task x)) "unhandled" ("unhandled Error executing task '" +:+ t_id (ti_task x) +:+ "' : " +:+ m) in
  exists y', s_insts (do_step E s).2 !! 0%nat = Some y' /\ i_status y' = FActive /\ i_handling y' = true /\
    (fun p => (p.1.2, p.2)) <$> pending (do_step E s).2 =
      ((fun p => (p.1.2, p.2)) <$> pending s1) ++ ((fun tk => (0%nat, t_id tk)) <$> start_tasks (eh_tasks h)) /\
    (forall id, is_Some (i_tasks y' !! id) <-> id ∈ t_id <$> start_tasks (eh_tasks h)) /\
    (forall id u, i_tasks y' !! id = Some u -> exists x', s_tis (do_step E s).2 !! u = Some x' /\
       ti_status x' = TReady /\ t_id (ti_task x') = id /\ ti_task x' ∈ start_tasks (eh_tasks h)) /\
    describes (ti_task x) e (i_attrs y' !! "_E") /\
    describes (ti_task x) e (i_attrs y' !! ("_E." +:+ t_id (ti_task x))).
Proof. exact panic_handled. Qed.
Print Assumptions C47_handled.
Example C47_handled_example :
  let E := env_iter_boom in let s := after E 1 (started E boom_iter "u" ∅) in
  running E boom_iter "u" s /\ built boom_iter /\ settings_ok E /\ e_conc E = false /\ handler_acting boom_iter /\
  (exists h, d_eh boom_iter = Some h /\ t_id <$> start_tasks (eh_tasks h) = ["h"]) /\
  exists t x s1 y1, panics E s t x "boom" s1 /\ ti_inst x = 0%nat /\ t_id (ti_task x) = "it" /\ s_insts s1 !! 0%nat = Some y1 /\
    i_status y1 = FActive /\ i_handling y1 = false.
Proof.
  cbv zeta. set (E := env_iter_boom). set (s := after _ _ _). split; [apply started_running|]. split; [apply flow_of_built; ev|].
  split; [intros n v; by eexists|]. split; [done|]. split; [by apply all_acting; ev|]. split.
  { destruct (some_check (fun h => t_id <$> start_tasks (eh_tasks h) = ["h"]) (d_eh boom_iter)) as (h & Hh & H1); [ev|]. eauto. }
  destruct (panic_check E s (fun t x m s1 => bool_decide (m = "boom" /\ ti_inst x = 0%nat /\ t_id (ti_task x) = "it") &&
    match s_insts s1 !! 0%nat with Some y => bool_decide (i_status y = FActive) && negb (i_handling y) | None => false end)) as (t & x & m & s1 & P & H); [ev|].
  apply andb_prop in H as [H H']. apply bool_decide_eq_true in H as (-> & H2 & H3). destruct (s_insts s1 !! 0%nat) as [y1|] eqn:Hy; [|done].
  apply andb_prop in H' as [H4 H5]. apply bool_decide_eq_true in H4.
  exists t, x, s1, y1. split_and!; [done..|]. by destruct (i_handling y1).
Qed.

(** C47: a panic in a task of a subflow without an error handler: the subflow fails, and the task that started it gets the error and is queued behind
    all other work. *)
Theorem C47_host : forall E d uri s t x m s1 y1 ht,
  running E d uri s -> SpecSub.recordable E -> panics E s t x m s1 -> ti_inst x <> 0%nat ->
  s_insts s1 !! ti_inst x = Some y1 -> i_handling y1 = false -> d_eh (i_def y1) = None -> i_host y1 = Some ht ->
  exists y' xh w, s_insts (do_step E s).2 !! ti_inst x = Some y' /\ i_status y' = FFailed /\ i_host y' = Some ht /\
    s_tis (do_step E s).2 !! ht = Some xh /\
    ti_rerr xh = Some (EOther ("unhandled Error executing task '" +:+ t_id (ti_task x) +:+ "' : " +:+ m)) /\
    s_queue (do_step E s).2 = s_queue s1 ++ [(w, ht)].
Proof. exact panic_in_sub. Qed.
Print Assumptions C47_host.
Example C47_host_example :
  let E := env_iter_sub in let s := after E 4 (started E iter_host "u" ∅) in
  running E iter_host "u" s /\ SpecSub.recordable E /\
  exists t x s1 y1 ht, panics E s t x "boom" s1 /\ ti_inst x = 1%nat /\ t_id (ti_task x) = "it" /\ s_insts s1 !! 1%nat = Some y1 /\
    i_handling y1 = false /\ d_eh (i_def y1) = None /\ i_host y1 = Some ht.
Proof.
  cbv zeta. set (E := env_iter_sub). set (s := after _ _ _). split; [apply started_running|]. split; [exists RMOff; split; [done|by right]|].
  destruct (panic_check E s (fun t x m s1 => bool_decide (m = "boom" /\ ti_inst x = 1%nat /\ t_id (ti_task x) = "it") &&
    match s_insts s1 !! 1%nat with Some y => negb (i_handling y) && bool_decide (d_eh (i_def y) = None) && bool_decide (is_Some (i_host y)) | None => false end)) as (t & x & m & s1 & P & H); [ev|].
  apply andb_prop in H as [H H']. apply bool_decide_eq_true in H as (-> & H2 & H3). destruct (s_insts s1 !! 1%nat) as [y1|] eqn:Hy; [|done].
  apply andb_prop in H' as [H4 H5]. apply andb_prop in H4 as [H4 H6]. apply bool_decide_eq_true in H5 as [ht Hht]. apply bool_decide_eq_true in H6.
  exists t, x, s1, y1, ht. split_and!; try done. by destruct (i_handling y1).
Qed.

(** C47: the handling of a panic is not protected itself. The settings mappers of a successor and of the task the error handler starts with panic:
    the first panic is caught, the second gets out of the step. *)
Theorem C47_refuted : exists E d uri s m, built d /\ built_env E /\ NoDup (t_id <$> all_tasks d) /\ starts_acting (d_tasks d) /\ handler_acting d /\
  SpecSub.recordable E /\ e_conc E = false /\ running E d uri s /\ (do_step E s).1 = Panic m.
Proof. exact handler_panics. Qed.
Print Assumptions C47_refuted.

(** C47: after a failed activity the same panic is dropped: the run ends without a result, the flow stays active and its error handler does not run. *)
Theorem C47_dropped_refuted : exists E ro d uri ins e, built d /\ built_env E /\ NoDup (t_id <$> all_tasks d) /\ starts_acting (d_tasks d) /\ handler_acting d /\
  SpecSub.recordable E /\ e_conc E = false /\ (forall n v, e_act E n v = AEnd (AErr e)) /\
  (run_flow E ro d uri ins).1 = Ok tt /\ main_status (run_flow E ro d uri ins).2 = Some FActive /\
  delivered (run_flow E ro d uri ins).2 = [] /\ evaluations (run_flow E ro d uri ins).2 = [(0%nat, "a")].
Proof. exact panic_dropped. Qed.
Print Assumptions C47_dropped_refuted.
