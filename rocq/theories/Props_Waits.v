(** Runs that end without a result. *)
From Verif Require Import Examples16 Findings.
Local Open Scope Z_scope.

(** C51: a run that returns with the flow still active, although it was allowed more steps, has no work left: nothing is queued. Every flow, every environment. *)
Theorem C51_no_work : forall E ro d uri ins, (run_flow E ro d uri ins).1 = Ok tt -> main_status (run_flow E ro d uri ins).2 = Some FActive ->
  Z.of_nat (s_step (run_flow E ro d uri ins).2) < ro_max ro - first_count ro -> s_queue (run_flow E ro d uri ins).2 = [].
Proof. exact run_idle. Qed.
Print Assumptions C51_no_work.

(** C51: no task is forgotten. Activities may wait. In every state in which the flow is active, each task that has not been done, skipped or failed can be
    reached from a task that is queued or waits; and there is a task that is queued or waits.
    Missing: flows with subflows, shortcuts, or failures that start the error handler. *)
Theorem C51_not_forgotten_partial : forall E d uri, simple_flow d -> orderly E -> no_takeover E d ->
  forall s, visited E d uri s -> main_status s = Some FActive ->
  (forall tk, tk ∈ d_tasks d -> (forall z, z = TDone \/ z = TSkipped \/ z = TFailed -> ~ task_got s (t_id tk) z) ->
     exists tk', tk' ∈ d_tasks d /\ rtc (edge d) (false, t_id tk') (false, t_id tk) /\
     exists y t x, s_insts s !! 0%nat = Some y /\ i_tasks y !! t_id tk' = Some t /\ s_tis s !! t = Some x /\ ti_task x = tk' /\ ti_inst x = 0%nat /\
       (t ∈ (s_queue s).*2 \/ ti_status x = TWaiting)) /\
  (d_tasks d <> [] -> exists tk, tk ∈ d_tasks d /\
     exists y t x, s_insts s !! 0%nat = Some y /\ i_tasks y !! t_id tk = Some t /\ s_tis s !! t = Some x /\ ti_task x = tk /\ ti_inst x = 0%nat /\
       (t ∈ (s_queue s).*2 \/ ti_status x = TWaiting)).
Proof. exact not_forgotten. Qed.
Print Assumptions C51_not_forgotten_partial.

(** C51: so a run of such a flow that returns with the flow active and steps left has a task that waits.
    Missing: as above; in general it is false, see [C51_refuted]. *)
Theorem C51_waits_partial : forall E d uri, simple_flow d -> orderly E -> no_takeover E d ->
  forall ro ins, d_tasks d <> [] -> (run_flow E ro d uri ins).1 = Ok tt -> main_status (run_flow E ro d uri ins).2 = Some FActive ->
  Z.of_nat (s_step (run_flow E ro d uri ins).2) < ro_max ro - first_count ro ->
  exists y tk t x, s_insts (run_flow E ro d uri ins).2 !! 0%nat = Some y /\ tk ∈ d_tasks d /\ i_tasks y !! t_id tk = Some t /\
    s_tis (run_flow E ro d uri ins).2 !! t = Some x /\ ti_task x = tk /\ ti_status x = TWaiting.
Proof. exact run_waits. Qed.
Print Assumptions C51_waits_partial.

(** "a" waits, "c" comes after it; "b" and "d" are done. *)
Example C51_waits_example :
  let E := env1 act_waits in let r := run_flow E ro0 two_lines "u" ∅ in
  simple_flow two_lines /\ orderly E /\ no_takeover E two_lines /\ d_tasks two_lines <> [] /\ r.1 = Ok tt /\ main_status r.2 = Some FActive /\
  Z.of_nat (s_step r.2) < ro_max ro0 - first_count ro0 /\ evaluations r.2 = [(0, "a"); (0, "b"); (0, "d")]%nat /\ visited E two_lines "u" r.2.
Proof.
  cbv zeta. split; [split_and!; [side depth|side depth|side depth|apply (shortcut_check_ok _ (depth false)); ev]|]. split; [apply env1_orderly|]. split; [left; ev|].
  split; [vm_compute; discriminate|]. split; [ev|]. split; [ev|]. split; [ev|]. split; [ev|]. right. by exists ro0, ∅.
Qed.

(** C51 is false for flows with a shortcut: the run of an acyclic flow all of whose activities succeed returns, the flow stays active, no result is given,
    and no task waits. *)
Theorem C51_refuted : exists E ro d uri ins, built d /\ acyclic d /\ no_parallel d /\ plain_tasks d /\ d_tasks d <> [] /\
  d_eh d = None /\ sync_env true E /\ links_ok E /\ settings_ok E /\ mappers_ok E /\ e_icpt E = None /\ e_conc E = false /\
  (run_flow E ro d uri ins).1 = Ok tt /\ main_status (run_flow E ro d uri ins).2 = Some FActive /\
  Z.of_nat (s_step (run_flow E ro d uri ins).2) < ro_max ro - first_count ro /\ delivered (run_flow E ro d uri ins).2 = [] /\
  forall t x, s_tis (run_flow E ro d uri ins).2 !! t = Some x -> ti_status x <> TWaiting.
Proof. exact waits_for_nobody. Qed.
Print Assumptions C51_refuted.

(** C51 is false for every flow in which each task has an incoming link, and for the flow without tasks, in every environment: started, it stays active for ever,
    nothing is evaluated, nothing is delivered, nothing is queued, and there is no task that could be resumed. *)
Theorem C51_no_start : forall E d uri ins, start_tasks (d_tasks d) = [] ->
  forall n, let s := after E n (started E d uri ins) in main_status s = Some FActive /\ evaluations s = [] /\ delivered s = [] /\ s_queue s = [] /\
    forall t, s_tis s !! t = None.
Proof. exact no_start_stalls. Qed.
Print Assumptions C51_no_start.

(** Two tasks in a circle, with an error handler; no tasks at all. *)
Example C51_no_start_example :
  let d := flow_of "f" [tr "a"; tr "b"] [ldep "a" "b"; ldep "b" "a"] (Some ([tr "h"], [])) None in let d' := flow_of "f" [] [] None None in
  built d /\ built d' /\ start_tasks (d_tasks d) = [] /\ start_tasks (d_tasks d') = [] /\ length (d_tasks d) = 2%nat.
Proof. cbv zeta. split; [apply flow_of_built; ev|]. split; [apply flow_of_built; ev|]. split_and!; ev. Qed.

(** C51: nothing wakes up a flow that has no work queued, whatever it waits for: however often it is stepped or resumed by another run, with whatever options
    and inputs, it stays active, no activity is evaluated and no task changes. So an activity that reports that it is not done is heard of again only if it has
    started a subflow that has work left. (Loading a saved state and restarting it is not among these ways.) *)
Theorem C51_never_woken : forall E s s', main_status s = Some FActive -> s_queue s = [] -> later E s s' ->
  main_status s' = Some FActive /\ s_queue s' = [] /\ s_tis s' = s_tis s /\ evaluations s' = evaluations s.
Proof. exact never_woken. Qed.
Print Assumptions C51_never_woken.

(** The run above in which "a" waits, stepped once and resumed twice, the second time with inputs. *)
Example C51_never_woken_example :
  let E := env1 act_waits in let s := (run_flow E ro0 two_lines "u" ∅).2 in
  main_status s = Some FActive /\ s_queue s = [] /\
  later E s (run_resume E ro0 {[ "done" := VBool true ]} (run_resume E ro0 ∅ (do_step E s).2).2).2 /\ (run_resume E ro0 {[ "done" := VBool true ]} s).1 = Ok tt.
Proof. cbv zeta. split; [ev|]. split; [ev|]. split; [|ev]. apply later_step, (later_resume _ ro0 ∅), (later_resume _ ro0 {[ "done" := VBool true ]}), later_same. Qed.

(** C51 is false for every flow whose error handler has no task to start with, in every environment: when an activity of the main flow fails that was the last
    work queued, the handler is started; from then on the flow stays active for ever, with no task and no work. The error is not reported. *)
Theorem C51_handler : forall E d uri s t x e s1 h,
  running E d uri s -> built d -> cov_ok E -> settings_ok E -> e_conc E = false -> d_eh d = Some h -> start_tasks (eh_tasks h) = [] ->
  evaluates E s t x (inl e) s1 -> ti_inst x = 0%nat -> no_error_link (ti_task x) ->
  (forall y, s_insts s !! 0%nat = Some y -> i_handling y = false) -> pending s1 = [] ->
  (exists y, s_insts (do_step E s).2 !! 0%nat = Some y /\ i_tasks y = ∅) /\
  forall s', later E (do_step E s).2 s' -> main_status s' = Some FActive /\ s_queue s' = [] /\ evaluations s' = evaluations (do_step E s).2.
Proof. exact handler_stalls. Qed.
Print Assumptions C51_handler.

(** "b" fails; the handler has no tasks. The run returns and delivers nothing. *)
Example C51_handler_example :
  let d := flow_of "f" [tr "a"; tr "b"; tr "c"] [ldep "a" "b"; ldep "b" "c"] (Some ([], [])) None in
  let E := env1 (act_fail ["b"]) in let s := after E 1 (started E d "u" ∅) in let r := run_flow E ro0 d "u" ∅ in
  running E d "u" s /\ built d /\ cov_ok E /\ settings_ok E /\ e_conc E = false /\
  (exists h, d_eh d = Some h /\ start_tasks (eh_tasks h) = []) /\
  (exists t x s1, evaluates E s t x (inl (EAct "failed" "42" VNil false "b")) s1 /\ ti_inst x = 0%nat /\ no_error_link (ti_task x) /\ pending s1 = []) /\
  (forall y, s_insts s !! 0%nat = Some y -> i_handling y = false) /\
  r.1 = Ok tt /\ main_status r.2 = Some FActive /\ delivered r.2 = [] /\ evaluations r.2 = [(0, "a"); (0, "b")]%nat.
Proof.
  cbv zeta. set (E := env1 (act_fail ["b"])). set (d := flow_of _ _ _ _ _). set (s := after _ _ _).
  split; [apply started_running|]. split; [by apply flow_of_built; ev|]. split; [apply env1_cov|]. split; [apply env1_settings|]. split; [done|]. split.
  { exists (mk_eh [] []). split; ev. }
  split.
  { destruct (eval_check E s (fun t x r s1 => bool_decide (r = inl (EAct "failed" "42" VNil false "b") /\ ti_inst x = 0%nat /\
      Forall (fun l => l_type l <> LtError) (t_to (ti_task x)) /\ pending s1 = []))) as (t & x & r & s1 & Ev & H); [ev|].
    apply bool_decide_eq_true in H as (-> & H1 & H2 & H3). exists t, x, s1. split_and!; [done|done|by apply no_error_check|done]. }
  split.
  { destruct (some_check (fun y => i_handling y = false) (s_insts s !! 0%nat)) as (y & Hy & H); [ev|]. intros y'. rewrite Hy. by intros [= <-]. }
  split_and!; ev.
Qed.
