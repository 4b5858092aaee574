(** Properties of errors, error handlers and returned results. *)
From Verif Require Import Errors Examples2.
Local Open Scope Z_scope.

(** C06: an evaluation of a task of the main flow fails, no link of the task handles errors and the
    flow has no error handler: the step leaves the main flow failed with that error, and no later step
    evaluates anything. *)
Theorem C06_stops : forall E d uri s t x e s1,
  running E d uri s -> cov_ok E -> d_eh d = None -> evaluates E s t x (inl e) s1 -> ti_inst x = 0%nat ->
  no_error_link (ti_task x) ->
  (exists y, s_insts (do_step E s).2 !! 0%nat = Some y /\ i_status y = FFailed /\ i_rerr y = Some e) /\
  (forall n, evaluations (after E n (do_step E s).2) = evaluations s1).
Proof. exact failure_stops. Qed.
Print Assumptions C06_stops.

(** C06: when this happens in a run, with steps left, the last thing delivered is that error. *)
Theorem C06_delivered : forall E ro d uri ins n t x e s1,
  let begun := (run_begin E ro ins (init_st d uri)).2 in
  (run_flow E ro d uri ins).1 = Ok tt -> (run_begin E ro ins (init_st d uri)).1 = Ok tt ->
  cov_ok E -> d_eh d = None -> evaluates E (laps E n begun) t x (inl e) s1 -> ti_inst x = 0%nat ->
  no_error_link (ti_task x) -> Z.of_nat (S n) < ro_max ro - first_count ro ->
  last (delivered (run_flow E ro d uri ins).2) = Some (None, Some e) /\
  main_status (run_flow E ro d uri ins).2 = Some FFailed.
Proof. exact failed_delivered. Qed.
Print Assumptions C06_delivered.

(** C06: the error of an evaluation is the error of its last activity call. *)
Theorem C06_activity : forall E d uri s t x r s1 c e,
  running E d uri s -> evaluates E s t x r s1 -> ti_status x <> TWaiting -> t_type (ti_task x) = TBasic ->
  retries_left (ti_task x) (ti_wd x) c -> smooth E (ti_task x) ->
  last (outcomes (ti_inst x) (t_id (ti_task x)) (happened s s1)) = Some (Some e) -> r = inl e.
Proof. exact activity_error. Qed.
Print Assumptions C06_activity.

(** "b" fails while "c" is queued. *)
Definition err_b : err := EAct "failed" "42" VNil false "b".
Example C06_example :
  let E := env1 (act_fail ["b"]) in
  let s := laps E 1 (run_begin E ro0 ∅ (init_st two_lines "u")).2 in
  running E two_lines "u" s /\ cov_ok E /\ d_eh two_lines = None /\
  (run_flow E ro0 two_lines "u" ∅).1 = Ok tt /\ (run_begin E ro0 ∅ (init_st two_lines "u")).1 = Ok tt /\
  pending s = [(2, 0, "b"); (3, 0, "c")]%nat /\
  exists t x s1, evaluates E s t x (inl err_b) s1 /\ ti_inst x = 0%nat /\ no_error_link (ti_task x) /\
    t_type (ti_task x) = TBasic /\ ti_status x = TReady /\ retries_left (ti_task x) (ti_wd x) 0 /\ smooth E (ti_task x) /\
    outcomes 0 "b" (happened s s1) = [Some err_b].
Proof.
  cbv zeta. set (E := env1 (act_fail ["b"])). set (s := laps _ _ _).
  assert ((run_begin E ro0 ∅ (init_st two_lines "u")).1 = Ok tt) as Hb by ev.
  split_and!; [by apply laps_running, begin_running|apply env1_cov|ev|ev|done|ev|].
  destruct (eval_check E s (fun t x r s1 => bool_decide (r = inl err_b /\ ti_inst x = 0%nat /\
    Forall (fun l => l_type l <> LtError) (t_to (ti_task x)) /\ t_type (ti_task x) = TBasic /\ ti_status x = TReady /\
    t_retry (ti_task x) = None /\ t_loop (ti_task x) = None /\ is_Some (t_act (ti_task x)) /\
    outcomes 0 "b" (happened s s1) = [Some err_b]))) as (t & x & r & s1 & Ev & H); [ev|].
  apply bool_decide_eq_true in H as (-> & H1 & H2 & H3 & H4 & H5 & H6 & H7 & H8).
  exists t, x, s1. split_and!; [done|done|by apply no_error_check|done|done| |by apply env1_smooth|done].
  unfold retries_left. by rewrite H5.
Qed.

(** C13: an evaluation of a task of the main flow fails, no link of the task handles errors and the
    flow has an error handler that has not been started: after the step the main flow is still active;
    the start tasks of the error handler, in order, are queued behind all work that was queued; they
    are the only tasks the flow knows, all ready; and the error attributes describe the error. *)
Theorem C13_handler : forall E d uri s t x e s1 h,
  running E d uri s -> built d -> cov_ok E -> settings_ok E -> e_conc E = false -> d_eh d = Some h ->
  (forall tk, tk ∈ start_tasks (eh_tasks h) -> t_act tk <> None) ->
  evaluates E s t x (inl e) s1 -> ti_inst x = 0%nat -> no_error_link (ti_task x) ->
  (forall y, s_insts s !! 0%nat = Some y -> i_handling y = false) ->
  exists y', s_insts (do_step E s).2 !! 0%nat = Some y' /\ i_status y' = FActive /\ i_handling y' = true /\
    (fun p => (p.1.2, p.2)) <$> pending (do_step E s).2 =
      ((fun p => (p.1.2, p.2)) <$> pending s1) ++ ((fun tk => (0%nat, t_id tk)) <$> start_tasks (eh_tasks h)) /\
    (forall id, is_Some (i_tasks y' !! id) <-> id ∈ t_id <$> start_tasks (eh_tasks h)) /\
    (forall id u, i_tasks y' !! id = Some u -> exists x', s_tis (do_step E s).2 !! u = Some x' /\
       ti_status x' = TReady /\ t_id (ti_task x') = id /\ ti_task x' ∈ start_tasks (eh_tasks h)) /\
    describes (ti_task x) e (i_attrs y' !! "_E") /\
    describes (ti_task x) e (i_attrs y' !! ("_E." +:+ t_id (ti_task x))).
Proof. exact handler_takes_over. Qed.
Print Assumptions C13_handler.

(** "c" is queued when "b" fails; the handler has two start tasks. *)
Definition handled_flow : defn :=
  flow_of "f" [tr "a"; tr "b"; tr "c"] [ldep "a" "b"; ldep "a" "c"]
    (Some ([tr "h1"; tr "h2"; tr "h3"], [ldep "h1" "h3"])) None.
Example C13_example :
  let E := env1 (act_fail ["b"]) in
  let s := after E 1 (started E handled_flow "u" ∅) in
  running E handled_flow "u" s /\ built handled_flow /\ cov_ok E /\ settings_ok E /\ e_conc E = false /\
  (exists h, d_eh handled_flow = Some h /\ t_id <$> start_tasks (eh_tasks h) = ["h1"; "h2"] /\
     forall tk, tk ∈ start_tasks (eh_tasks h) -> t_act tk <> None) /\
  (exists t x s1, evaluates E s t x (inl err_b) s1 /\ ti_inst x = 0%nat /\ no_error_link (ti_task x) /\
     pending s1 = [(3, 0, "c")]%nat) /\
  (forall y, s_insts s !! 0%nat = Some y -> i_handling y = false).
Proof.
  cbv zeta. set (E := env1 (act_fail ["b"])). set (s := after _ _ _).
  split_and!; [apply started_running|by apply flow_of_built; ev|apply env1_cov|apply env1_settings|done| | |].
  - destruct (some_check (fun h => t_id <$> start_tasks (eh_tasks h) = ["h1"; "h2"] /\
      Forall (fun tk => is_Some (t_act tk)) (start_tasks (eh_tasks h))) (d_eh handled_flow)) as (h & Hh & H1 & H2); [ev|].
    exists h. split_and!; [done|done|]. intros tk Htk Hn. rewrite Forall_forall in H2. apply H2 in Htk as [? Htk]. congruence.
  - destruct (eval_check E s (fun t x r s1 => bool_decide (r = inl err_b /\ ti_inst x = 0%nat /\
      Forall (fun l => l_type l <> LtError) (t_to (ti_task x)) /\ pending s1 = [(3, 0, "c")]%nat))) as (t & x & r & s1 & Ev & H); [ev|].
    apply bool_decide_eq_true in H as (-> & H1 & H2 & H3). exists t, x, s1. split_and!; [done|done|by apply no_error_check|done].
  - destruct (some_check (fun y => i_handling y = false) (s_insts s !! 0%nat)) as (y & Hy & H); [ev|]. intros y'. rewrite Hy. by intros [= <-].
Qed.

(** C14: an activity of the main flow returns data and an error, and its task is done: the step leaves
    the main flow completed with them, and no later step evaluates anything. *)
Theorem C14_completes : forall E d uri s t x s1 l1 dt er l2,
  running E d uri s -> built d -> built_env E -> cov_ok E -> links_ok E -> evaluates E s t x (inr EvalDone) s1 -> ti_inst x = 0%nat ->
  happened s s1 = l1 ++ EvReturn 0 (Some dt) er :: l2 ->
  (forall j a b, EvReturn j a b ∉ l2) -> (forall a b, EvResult a b ∉ l2) ->
  (exists y, s_insts (do_step E s).2 !! 0%nat = Some y /\ i_status y = FCompleted /\ i_rdata y = Some dt /\ i_rerr y = er) /\
  (forall n, evaluations (after E n (do_step E s).2) = evaluations s1).
Proof. exact return_completes. Qed.
Print Assumptions C14_completes.

(** C14: when this happens in a run, with steps left, the last thing delivered is that data and error. *)
Theorem C14_delivered : forall E ro d uri ins n t x s1 l1 dt er l2,
  let begun := (run_begin E ro ins (init_st d uri)).2 in
  (run_flow E ro d uri ins).1 = Ok tt -> (run_begin E ro ins (init_st d uri)).1 = Ok tt ->
  built d -> built_env E -> cov_ok E -> links_ok E -> evaluates E (laps E n begun) t x (inr EvalDone) s1 -> ti_inst x = 0%nat ->
  happened (laps E n begun) s1 = l1 ++ EvReturn 0 (Some dt) er :: l2 ->
  (forall j a b, EvReturn j a b ∉ l2) -> (forall a b, EvResult a b ∉ l2) ->
  Z.of_nat (S n) < ro_max ro - first_count ro ->
  last (delivered (run_flow E ro d uri ins).2) = Some (Some dt, er) /\
  main_status (run_flow E ro d uri ins).2 = Some FCompleted.
Proof. exact return_delivered. Qed.
Print Assumptions C14_delivered.

(** "b" returns while "c" is queued. *)
Definition act_return (l : list string) : nat -> view -> act := fun n v =>
  if bool_decide (v_task v ∈ l) then AReturn (Some {["r" := VInt 5]}) (Some (EOther "e")) (AEnd ADone) else act_ok n v.
Example C14_example :
  let E := env1 (act_return ["b"]) in
  let s := laps E 1 (run_begin E ro0 ∅ (init_st two_lines "u")).2 in
  running E two_lines "u" s /\ built two_lines /\ built_env E /\ cov_ok E /\ links_ok E /\
  (run_flow E ro0 two_lines "u" ∅).1 = Ok tt /\ (run_begin E ro0 ∅ (init_st two_lines "u")).1 = Ok tt /\
  exists t x s1 l1 l2, evaluates E s t x (inr EvalDone) s1 /\ ti_inst x = 0%nat /\ pending s1 = [(3, 0, "c")]%nat /\
    happened s s1 = l1 ++ EvReturn 0 (Some {["r" := VInt 5]}) (Some (EOther "e")) :: l2 /\
    (forall j a b, EvReturn j a b ∉ l2) /\ (forall a b, EvResult a b ∉ l2).
Proof.
  cbv zeta. set (E := env1 (act_return ["b"])). set (s := laps _ _ _).
  assert ((run_begin E ro0 ∅ (init_st two_lines "u")).1 = Ok tt) as Hb by ev.
  split_and!; [by apply laps_running, begin_running|by apply flow_of_built; ev|apply env1_built|apply env1_cov|apply env1_links|ev|done|].
  destruct (eval_check E s (fun t x r s1 => bool_decide (r = inr EvalDone /\ ti_inst x = 0%nat /\ pending s1 = [(3, 0, "c")]%nat /\
    last_event answered (happened s s1) = Some (Some 0%nat, Some {["r" := VInt 5]}, Some (EOther "e")))))
    as (t & x & r & s1 & Ev & H); [ev|].
  apply bool_decide_eq_true in H as (-> & H1 & H2 & H3). apply last_return in H3 as (l1 & l2 & H3 & H4 & H5).
  exists t, x, s1, l1, l2. split_and!; assumption.
Qed.

(** C20: an activity of a subflow returns data, and its task is done: the step leaves the subflow
    completed, the outputs of its host task are that data, without an error, and the host task alone is queued, behind
    all other work. *)
Theorem C20_outputs : forall E d uri s t x s1 l1 dt er l2,
  running E d uri s -> built d -> built_env E -> cov_ok E -> links_ok E -> evaluates E s t x (inr EvalDone) s1 -> ti_inst x <> 0%nat ->
  happened s s1 = l1 ++ EvReturn (ti_inst x) (Some dt) er :: l2 ->
  (forall j a b, EvReturn j a b ∉ l2) -> (forall a b, EvResult a b ∉ l2) ->
  exists y ht xh w, s_insts (do_step E s).2 !! ti_inst x = Some y /\ i_status y = FCompleted /\ i_host y = Some ht /\
    s_tis (do_step E s).2 !! ht = Some xh /\ ti_out xh = dt /\ ti_rerr xh = None /\ s_queue (do_step E s).2 = s_queue s1 ++ [(w, ht)].
Proof. exact return_to_host. Qed.
Print Assumptions C20_outputs.

(** The task "x" of the subflow returns. *)
Definition env_sub_return : env := set_e_act (fun n v =>
  if bool_decide (v_task v = "x") then AReturn (Some {["r" := VInt 5]}) None (AEnd ADone) else sub_act ["a"] n v) env_sub.
Example C20_outputs_example :
  let s := after env_sub_return 1 (started env_sub_return caller "u" ∅) in
  running env_sub_return caller "u" s /\ built caller /\ built_env env_sub_return /\ cov_ok env_sub_return /\ links_ok env_sub_return /\
  exists t x s1 l1 l2, evaluates env_sub_return s t x (inr EvalDone) s1 /\ ti_inst x = 1%nat /\
    happened s s1 = l1 ++ EvReturn 1 (Some {["r" := VInt 5]}) None :: l2 /\
    (forall j a b, EvReturn j a b ∉ l2) /\ (forall a b, EvResult a b ∉ l2).
Proof.
  cbv zeta. set (E := env_sub_return). set (s := after _ _ _).
  split_and!; [apply started_running|apply caller_built|exact env_sub_built|by intros c [=]|apply (env1_links act_ok)|].
  destruct (eval_check E s (fun t x r s1 => bool_decide (r = inr EvalDone /\ ti_inst x = 1%nat /\
    last_event answered (happened s s1) = Some (Some 1%nat, Some {["r" := VInt 5]}, None))))
    as (t & x & r & s1 & Ev & H); [ev|].
  apply bool_decide_eq_true in H as (-> & H1 & H3). apply last_return in H3 as (l1 & l2 & H3 & H4 & H5).
  exists t, x, s1, l1, l2. split_and!; assumption.
Qed.
