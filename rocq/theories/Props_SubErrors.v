(** Properties of expressions that fail, and of panics, in subflows. *)
From Verif Require Import Examples12.
Local Open Scope Z_scope.

(** C21, C39: a task of a subflow is done, one of its links has an expression that cannot be evaluated, and the subflow has no error handler:
    the subflow fails, and the task that started it gets an error of an expression of the task's links and is queued behind all other work. *)
Theorem C39_subflow : forall E d uri s t x s1 y ht,
  running E d uri s -> cov_ok E -> recordable E -> evaluates E s t x (inr EvalDone) s1 -> ti_inst x <> 0%nat ->
  (exists l, l ∈ t_to (ti_task x) /\ broken E l) ->
  s_insts s !! ti_inst x = Some y -> i_host y = Some ht -> i_handling y = false -> d_eh (i_def y) = None ->
  exists e, expression_error E (t_to (ti_task x)) e /\
  exists y' xh w, s_insts (do_step E s).2 !! ti_inst x = Some y' /\ i_status y' = FFailed /\ i_host y' = Some ht /\
    s_tis (do_step E s).2 !! ht = Some xh /\ ti_rerr xh = Some e /\ s_queue (do_step E s).2 = s_queue s1 ++ [(w, ht)].
Proof. exact sub_expression_told. Qed.
Print Assumptions C39_subflow.

(** C21: and when the host, which waits, is evaluated next (with no step of the subflow in between), this evaluation fails with that error.
    Missing, as for [C21_host_fails_partial]: hosts with PostEval or retries, and steps of the subflow in between. *)
Theorem C21_expression_partial : forall E d uri s t x s1 y ht s' xh r s2,
  running E d uri s -> cov_ok E -> recordable E -> evaluates E s t x (inr EvalDone) s1 -> ti_inst x <> 0%nat ->
  (exists l, l ∈ t_to (ti_task x) /\ broken E l) ->
  s_insts s !! ti_inst x = Some y -> i_host y = Some ht -> i_handling y = false -> d_eh (i_def y) = None ->
  undisturbed E ht (do_step E s).2 s' -> evaluates E s' ht xh r s2 -> ti_status xh = TWaiting -> no_post E xh -> t_retry (ti_task xh) = None ->
  exists e, expression_error E (t_to (ti_task x)) e /\ r = inl e.
Proof. exact sub_expression_host. Qed.
Print Assumptions C21_expression_partial.

(** "x" of the subflow is done while "d" of the main flow is queued; after "d" the host is evaluated. *)
Example C39_subflow_example :
  let E := env_expr (flow_of "g" [tr "x"; tr "y"] [lexpr "x" "y" "err"] None None) true in
  let s := after E 2 (started E host_flow "u" ∅) in
  let s' := after E 1 (do_step E s).2 in
  running E host_flow "u" s /\ cov_ok E /\ recordable E /\
  exists t x s1 y ht xh r s2, evaluates E s t x (inr EvalDone) s1 /\ ti_inst x = 1%nat /\ (exists l, l ∈ t_to (ti_task x) /\ broken E l) /\
    pending s1 = [(4, 0, "d")]%nat /\
    s_insts s !! 1%nat = Some y /\ i_host y = Some ht /\ i_handling y = false /\ d_eh (i_def y) = None /\
    undisturbed E ht (do_step E s).2 s' /\ evaluates E s' ht xh r s2 /\ ti_inst xh = 0%nat /\ t_id (ti_task xh) = "a" /\
    ti_status xh = TWaiting /\ no_post E xh /\ t_retry (ti_task xh) = None.
Proof.
  cbv zeta. set (E := env_expr _ _). set (s := after _ _ (started _ _ _ _)). set (s' := after _ 1 _).
  split_and!; [apply started_running|by intros c [=]|exists RMOff; split; [done|by right]|].
  destruct (eval_check E s (fun t x r s1 => bool_decide (r = inr EvalDone /\ ti_inst x = 1%nat /\ pending s1 = [(4, 0, "d")]%nat) &&
    existsb (fun l => bool_decide (l_type l = LtExpression /\ l_expr l = Some "err")) (t_to (ti_task x)))) as (t & x & r & s1 & Ev & H); [ev|].
  apply andb_true_iff in H as [H Hb]. apply bool_decide_eq_true in H as (-> & H1 & H3).
  destruct (some_check (fun y => i_host y = Some 0%nat /\ i_handling y = false /\ (if d_eh (i_def y) then true else false) = false) (s_insts s !! 1%nat)) as (y & Hy & H4 & H0 & H5); [ev|].
  destruct (eval_check E s' (fun u xh r s2 => bool_decide (u = 0%nat /\ ti_inst xh = 0%nat /\ t_id (ti_task xh) = "a" /\ ti_status xh = TWaiting /\ (if t_retry (ti_task xh) then true else false) = false))) as (u & xh & r & s2 & Ev2 & H); [ev|].
  apply bool_decide_eq_true in H as (-> & H6 & H7 & H8 & H9).
  exists t, x, s1, y, 0%nat, xh, r, s2. split_and!; [assumption|assumption|exact (broken_check _ _ Hb)|assumption|assumption|assumption|assumption|by destruct (d_eh _)| |assumption|assumption|assumption|assumption|by intros n v|by destruct (t_retry _)].
  apply calm_undisturbed; [constructor|ev].
Qed.

(** C22, C39: the same in a subflow with an error handler that has not been started and whose start tasks it does not know yet: the handler
    of the subflow takes over as after a failed activity (see [C22_subflow_handler_partial]); other flows are as before but for the task table of
    the main flow.
    Missing: that the table of the main flow is kept, which is false, see [C22_refuted]. *)
Theorem C22_expression_partial : forall E d uri s t x s1 i y h,
  running E d uri s -> cov_ok E -> settings_ok E -> e_conc E = false ->
  evaluates E s t x (inr EvalDone) s1 -> ti_inst x = i -> i <> 0%nat -> (exists l, l ∈ t_to (ti_task x) /\ broken E l) ->
  s_insts s !! i = Some y -> built (i_def y) -> d_eh (i_def y) = Some h ->
  (forall tk, tk ∈ start_tasks (eh_tasks h) -> t_act tk <> None /\ i_tasks y !! t_id tk = None) -> i_handling y = false ->
  (exists y' e, s_insts (do_step E s).2 !! i = Some y' /\ i_status y' = i_status y /\ i_handling y' = true /\
    (forall id, is_Some (i_tasks y' !! id) <-> is_Some (i_tasks y !! id) \/ id ∈ t_id <$> start_tasks (eh_tasks h)) /\
    expression_error E (t_to (ti_task x)) e /\
    describes (ti_task x) e (i_attrs y' !! "_E") /\ describes (ti_task x) e (i_attrs y' !! ("_E." +:+ t_id (ti_task x)))) /\
  (fun p => (p.1.2, p.2)) <$> pending (do_step E s).2 =
    ((fun p => (p.1.2, p.2)) <$> pending s1) ++ ((fun tk => (i, t_id tk)) <$> start_tasks (eh_tasks h)) /\
  (forall j yj, s_insts s !! j = Some yj -> j <> i ->
     s_insts (do_step E s).2 !! j = Some (if decide (j = 0%nat) then set_i_tasks ∅ yj else yj)) /\
  (forall u xu, s_tis s !! u = Some xu -> u <> t -> s_tis (do_step E s).2 !! u = Some xu).
Proof. exact sub_expression_handled. Qed.
Print Assumptions C22_expression_partial.

Example C22_expression_example :
  let g := sub_expr (Some ([tr "h1"; tr "h2"; tr "h3"], [ldep "h1" "h3"])) in
  let E := env_expr g true in
  let s := after E 2 (started E host_flow "u" ∅) in
  running E host_flow "u" s /\ cov_ok E /\ settings_ok E /\ e_conc E = false /\
  (exists t x s1, evaluates E s t x (inr EvalDone) s1 /\ ti_inst x = 1%nat /\ (exists l, l ∈ t_to (ti_task x) /\ broken E l) /\
     pending s1 = [(4, 1, "z"); (5, 0, "d")]%nat) /\
  built g /\
  exists y h, s_insts s !! 1%nat = Some y /\ i_def y = g /\ i_handling y = false /\ d_eh g = Some h /\
    t_id <$> start_tasks (eh_tasks h) = ["h1"; "h2"] /\
    forall tk, tk ∈ start_tasks (eh_tasks h) -> t_act tk <> None /\ i_tasks y !! t_id tk = None.
Proof.
  cbv zeta. set (g := sub_expr _). set (E := env_expr _ _). set (s := after _ _ _).
  split; [apply started_running|]. split; [by intros c [=]|]. split; [by intros n v; eexists|]. split; [done|]. split; [|split; [by apply flow_of_built; ev|]].
  - destruct (eval_check E s (fun t x r s1 => bool_decide (r = inr EvalDone /\ ti_inst x = 1%nat /\ pending s1 = [(4, 1, "z"); (5, 0, "d")]%nat) &&
      existsb (fun l => bool_decide (l_type l = LtExpression /\ l_expr l = Some "err")) (t_to (ti_task x)))) as (t & x & r & s1 & Ev & H); [ev|].
    apply andb_true_iff in H as [H H4]. apply bool_decide_eq_true in H as (-> & H1 & H2).
    exists t, x, s1. split; [assumption|]. split; [assumption|]. split; [exact (broken_check _ _ H4)|assumption].
  - pose (y := match s_insts s !! 1%nat with Some y => y | None => mk_inst None false 0 g "" ∅ ∅ false None None ∅ false end).
    pose (h := match d_eh g with Some h => h | None => mk_eh [] [] end).
    exists y, h. split; [ev|]. split; [ev|]. split; [ev|]. split; [ev|]. split; [ev|].
    assert (forallb (fun tk => match t_act tk, i_tasks y !! t_id tk with Some _, None => true | _, _ => false end) (start_tasks (eh_tasks h)) = true) as H by ev.
    intros tk Htk. rewrite forallb_forall in H. apply elem_of_list_In, H in Htk. destruct (t_act tk), (i_tasks y !! t_id tk); done.
Qed.

(** C39: and when the error handler of the subflow has been started: the subflow fails, and nothing else happens; nothing is queued, and no other
    flow or task, in particular not the task that started the subflow, is told. *)
Theorem C39_handling : forall E d uri s t x s1 y,
  running E d uri s -> cov_ok E -> evaluates E s t x (inr EvalDone) s1 -> ti_inst x <> 0%nat ->
  (exists l, l ∈ t_to (ti_task x) /\ broken E l) -> s_insts s !! ti_inst x = Some y -> i_handling y = true ->
  (exists y', s_insts (do_step E s).2 !! ti_inst x = Some y' /\ i_status y' = FFailed) /\
  s_queue (do_step E s).2 = s_queue s1 /\
  (forall j yj, s_insts s !! j = Some yj -> j <> ti_inst x -> s_insts (do_step E s).2 !! j = Some yj) /\
  (forall u xu, s_tis s !! u = Some xu -> u <> t -> s_tis (do_step E s).2 !! u = Some xu).
Proof. exact sub_expression_untold. Qed.
Print Assumptions C39_handling.

(** "h1" of the handler of the subflow is done. *)
Example C39_handling_example :
  let E := env_expr sub_bad_handler false in let s := after E 2 (started E call_one "u" ∅) in
  running E call_one "u" s /\ cov_ok E /\
  exists t x s1 y, evaluates E s t x (inr EvalDone) s1 /\ ti_inst x = 1%nat /\ t_id (ti_task x) = "h1" /\ (exists l, l ∈ t_to (ti_task x) /\ broken E l) /\
    s_insts s !! 1%nat = Some y /\ i_handling y = true.
Proof.
  cbv zeta. set (E := env_expr _ _). set (s := after _ _ (started _ _ _ _)).
  split_and!; [apply started_running|by intros c [=]|].
  destruct (eval_check E s (fun t x r s1 => bool_decide (r = inr EvalDone /\ ti_inst x = 1%nat /\ t_id (ti_task x) = "h1") &&
    existsb (fun l => bool_decide (l_type l = LtExpression /\ l_expr l = Some "err")) (t_to (ti_task x)))) as (t & x & r & s1 & Ev & H); [ev|].
  apply andb_true_iff in H as [H Hb]. apply bool_decide_eq_true in H as (-> & H1 & H3).
  destruct (some_check (fun y => i_handling y = true) (s_insts s !! 1%nat)) as (y & Hy & H4); [ev|].
  exists t, x, s1, y. split_and!; try assumption. exact (broken_check _ _ Hb).
Qed.

(** C47: a panic in a task of a subflow with an error handler that has not been started: the handler of the subflow takes over.
    Missing: that the table of the main flow is kept, which is false, see [C22_refuted]. *)
Theorem C47_subflow_partial : forall E d uri s t x m s1 i y1 h,
  running E d uri s -> settings_ok E -> e_conc E = false ->
  panics E s t x m s1 -> ti_inst x = i -> i <> 0%nat -> s_insts s1 !! i = Some y1 -> built (i_def y1) -> d_eh (i_def y1) = Some h ->
  (forall tk, tk ∈ start_tasks (eh_tasks h) -> t_act tk <> None /\ i_tasks y1 !! t_id tk = None) -> i_handling y1 = false ->
  let e := EEval (t_name (ti_task x)) "unhandled" ("unhandled Error executing task '" +:+ t_id (ti_task x) +:+ "' : " +:+ m) in
  (exists y', s_insts (do_step E s).2 !! i = Some y' /\ i_status y' = i_status y1 /\ i_handling y' = true /\
    (forall id, is_Some (i_tasks y' !! id) <-> is_Some (i_tasks y1 !! id) \/ id ∈ t_id <$> start_tasks (eh_tasks h)) /\
    describes (ti_task x) e (i_attrs y' !! "_E") /\ describes (ti_task x) e (i_attrs y' !! ("_E." +:+ t_id (ti_task x)))) /\
  (fun p => (p.1.2, p.2)) <$> pending (do_step E s).2 =
    ((fun p => (p.1.2, p.2)) <$> pending s1) ++ ((fun tk => (i, t_id tk)) <$> start_tasks (eh_tasks h)) /\
  (forall j yj, s_insts s1 !! j = Some yj -> j <> i ->
     s_insts (do_step E s).2 !! j = Some (if decide (j = 0%nat) then set_i_tasks ∅ yj else yj)) /\
  (forall u xu, s_tis s1 !! u = Some xu -> u <> t -> s_tis (do_step E s).2 !! u = Some xu).
Proof. exact panic_sub_handled. Qed.
Print Assumptions C47_subflow_partial.

Example C47_subflow_example :
  let E := env_sub_panic sub_boom true in let s := after E 5 (started E host_flow "u" ∅) in
  running E host_flow "u" s /\ settings_ok E /\ e_conc E = false /\ built sub_boom /\
  exists t x s1 y1 h, panics E s t x "boom" s1 /\ ti_inst x = 1%nat /\ t_id (ti_task x) = "it" /\ s_insts s1 !! 1%nat = Some y1 /\
    i_def y1 = sub_boom /\ i_handling y1 = false /\ d_eh sub_boom = Some h /\ t_id <$> start_tasks (eh_tasks h) = ["h1"; "h2"] /\
    forall tk, tk ∈ start_tasks (eh_tasks h) -> t_act tk <> None /\ i_tasks y1 !! t_id tk = None.
Proof.
  cbv zeta. set (E := env_sub_panic _ _). set (s := after _ _ _).
  split; [apply started_running|]. split; [by intros n v; eexists|]. split; [done|]. split; [by apply flow_of_built; ev|].
  destruct (panic_check E s (fun t x m s1 => bool_decide (m = "boom" /\ ti_inst x = 1%nat /\ t_id (ti_task x) = "it" /\ is_Some (s_insts s1 !! 1%nat)))) as (t & x & m & s1 & P & H); [ev|].
  apply bool_decide_eq_true in H as (-> & H2 & H3 & H4).
  pose (s1' := match next_panic E s with Some p => p.2 | None => s end). assert (s1 = s1') as -> by (by apply next_panic_state in P).
  pose (y1 := match s_insts s1' !! 1%nat with Some y => y | None => mk_inst None false 0 sub_boom "" ∅ ∅ false None None ∅ false end).
  pose (h := match d_eh sub_boom with Some h => h | None => mk_eh [] [] end).
  exists t, x, s1', y1, h. split; [done|]. split; [done|]. split; [done|]. split; [unfold y1; by destruct H4 as [? ->]|]. split; [ev|]. split; [ev|]. split; [ev|]. split; [ev|].
  assert (forallb (fun tk => match t_act tk, i_tasks y1 !! t_id tk with Some _, None => true | _, _ => false end) (start_tasks (eh_tasks h)) = true) as H by ev.
  intros tk Htk. rewrite forallb_forall in H. apply elem_of_list_In, H in Htk. destruct (t_act tk), (i_tasks y1 !! t_id tk); done.
Qed.

(** C47: a panic in a task of a flow, main flow or subflow, whose error handling has begun is dropped: the step ends as if nothing had happened, in
    the state the panic left behind. *)
Theorem C47_dropped : forall E d uri s t x m s1 y1,
  running E d uri s -> panics E s t x m s1 -> s_insts s1 !! ti_inst x = Some y1 -> i_handling y1 = true ->
  do_step E s = (Ok true, s1).
Proof. exact panic_lost. Qed.
Print Assumptions C47_dropped.

(** The handler of the subflow consists of an iterator that panics. *)
Example C47_dropped_example :
  let E := env_sub_panic sub_boom_handler false in let s := after E 2 (started E call_one "u" ∅) in
  running E call_one "u" s /\
  exists t x s1 y1, panics E s t x "boom" s1 /\ ti_inst x = 1%nat /\ t_id (ti_task x) = "it" /\ s_insts s1 !! 1%nat = Some y1 /\ i_handling y1 = true.
Proof.
  cbv zeta. set (E := env_sub_panic _ _). set (s := after _ _ _). split; [apply started_running|].
  destruct (panic_check E s (fun t x m s1 => bool_decide (m = "boom" /\ ti_inst x = 1%nat /\ t_id (ti_task x) = "it") &&
    match s_insts s1 !! 1%nat with Some y => i_handling y | None => false end)) as (t & x & m & s1 & P & H); [ev|].
  apply andb_prop in H as [H H']. apply bool_decide_eq_true in H as (-> & H2 & H3). destruct (s_insts s1 !! 1%nat) as [y1|] eqn:Hy; [|done].
  exists t, x, s1, y1. by split_and!.
Qed.

(** C21: the error handler of a subflow fails at an expression, or with a panic: the subflow is failed (or stays active), the task that started it is
    never told, the run ends without a result and the main flow stays active, with nothing to do. *)
Theorem C21_handler_refuted :
  (exists E ro d uri ins, built d /\ built_env E /\ d_eh d = None /\ SpecSub.recordable E /\ e_conc E = false /\
    (run_flow E ro d uri ins).1 = Ok tt /\ statuses 1 (run_flow E ro d uri ins).2 = [FActive; FFailed] /\
    main_status (run_flow E ro d uri ins).2 = Some FActive /\ delivered (run_flow E ro d uri ins).2 = [] /\ s_queue (run_flow E ro d uri ins).2 = []) /\
  (exists E ro d uri ins, built d /\ built_env E /\ d_eh d = None /\ SpecSub.recordable E /\ e_conc E = false /\
    (run_flow E ro d uri ins).1 = Ok tt /\ statuses 1 (run_flow E ro d uri ins).2 = [FActive] /\
    main_status (run_flow E ro d uri ins).2 = Some FActive /\ delivered (run_flow E ro d uri ins).2 = [] /\ s_queue (run_flow E ro d uri ins).2 = []).
Proof. exact host_never_told. Qed.
Print Assumptions C21_handler_refuted.
