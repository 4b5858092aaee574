(** Properties of failing expressions and of the hosts of subflows. *)
From Verif Require Import Fails Subflows Handled Examples5.
Local Open Scope Z_scope.

(** C39: a task of the main flow is done, one of its links has an expression that cannot be evaluated, and the flow has
    no error handler: the step leaves the main flow failed with the error of an expression of the task's links, it queues
    nothing (no link of the task is followed), and no later step evaluates anything.
    An expression that panics is different, see [C39_refuted]. *)
Theorem C39_expression_error : forall E d uri s t x s1,
  cov_ok E -> running E d uri s -> d_eh d = None -> evaluates E s t x (inr EvalDone) s1 -> ti_inst x = 0%nat ->
  (exists l, l ∈ t_to (ti_task x) /\ broken E l) ->
  (exists y e, s_insts (do_step E s).2 !! 0%nat = Some y /\ i_status y = FFailed /\ i_rerr y = Some e /\
     expression_error E (t_to (ti_task x)) e) /\
  pending (do_step E s).2 = pending s1 /\ (forall n, evaluations (after E n (do_step E s).2) = evaluations s1).
Proof. intros E d uri s t x s1 C. exact (expression_fails E d uri C s t x s1). Qed.
Print Assumptions C39_expression_error.

(** The first of two expressions is true, the second one cannot be evaluated; another task is queued. *)
Example C39_expression_error_example :
  let E := env0 act_ok in
  let d := broken_flow None in
  let s := started E d "u" ∅ in
  cov_ok E /\ running E d "u" s /\ d_eh d = None /\
  exists t x s1, evaluates E s t x (inr EvalDone) s1 /\ ti_inst x = 0%nat /\ t_id (ti_task x) = "a" /\ pending s1 = [(2, 0, "e")]%nat /\
    exists l, l ∈ t_to (ti_task x) /\ broken E l.
Proof.
  cbv zeta. set (E := env0 act_ok). set (s := started _ _ _ _).
  split_and!; [by intros c [=]|apply (started_running _ _ _ _ 0)|ev|].
  destruct (eval_check E s (fun t x r s1 => bool_decide (r = inr EvalDone /\ ti_inst x = 0%nat /\ t_id (ti_task x) = "a" /\ pending s1 = [(2, 0, "e")]%nat) &&
    existsb (fun l => bool_decide (l_type l = LtExpression /\ l_expr l = Some "err")) (t_to (ti_task x))))
    as (t & x & r & s1 & Ev & H); [ev|].
  apply andb_true_iff in H as [H Hb]. apply bool_decide_eq_true in H as (-> & H1 & H2 & H3).
  exists t, x, s1. split_and!; [assumption..|]. by apply broken_check.
Qed.

(** C39: the same in a flow with an error handler that has not been started: after the step the main flow is still
    active, the start tasks of the error handler are queued in order behind all work that was queued (and nothing else),
    and the error attributes describe an error of an expression of the task's links. *)
Theorem C39_expression_handled : forall E d uri s t x s1 h,
  cov_ok E -> running E d uri s -> built d -> settings_ok E -> e_conc E = false -> d_eh d = Some h ->
  (forall tk, tk ∈ start_tasks (eh_tasks h) -> t_act tk <> None) ->
  evaluates E s t x (inr EvalDone) s1 -> ti_inst x = 0%nat ->
  (exists l, l ∈ t_to (ti_task x) /\ broken E l) ->
  (forall y, s_insts s !! 0%nat = Some y -> i_handling y = false) ->
  exists e, expression_error E (t_to (ti_task x)) e /\
  exists y', s_insts (do_step E s).2 !! 0%nat = Some y' /\ i_status y' = FActive /\ i_handling y' = true /\
    (fun p => (p.1.2, p.2)) <$> pending (do_step E s).2 =
      ((fun p => (p.1.2, p.2)) <$> pending s1) ++ ((fun tk => (0%nat, t_id tk)) <$> start_tasks (eh_tasks h)) /\
    (forall id, is_Some (i_tasks y' !! id) <-> id ∈ t_id <$> start_tasks (eh_tasks h)) /\
    (forall id u, i_tasks y' !! id = Some u -> exists x', s_tis (do_step E s).2 !! u = Some x' /\
       ti_status x' = TReady /\ t_id (ti_task x') = id /\ ti_task x' ∈ start_tasks (eh_tasks h)) /\
    describes (ti_task x) e (i_attrs y' !! "_E") /\
    describes (ti_task x) e (i_attrs y' !! ("_E." +:+ t_id (ti_task x))).
Proof. intros E d uri s t x s1 h C. exact (expression_handled E d uri C s t x s1 h). Qed.
Print Assumptions C39_expression_handled.

Example C39_expression_handled_example :
  let E := env0 act_ok in
  let d := broken_flow (Some ([tr "h1"; tr "h2"; tr "h3"], [ldep "h1" "h3"])) in
  let s := started E d "u" ∅ in
  cov_ok E /\ running E d "u" s /\ built d /\ settings_ok E /\ e_conc E = false /\
  (exists h, d_eh d = Some h /\ t_id <$> start_tasks (eh_tasks h) = ["h1"; "h2"] /\
     forall tk, tk ∈ start_tasks (eh_tasks h) -> t_act tk <> None) /\
  (exists t x s1, evaluates E s t x (inr EvalDone) s1 /\ ti_inst x = 0%nat /\ t_id (ti_task x) = "a" /\ pending s1 = [(2, 0, "e")]%nat /\
    exists l, l ∈ t_to (ti_task x) /\ broken E l) /\
  (forall y, s_insts s !! 0%nat = Some y -> i_handling y = false).
Proof.
  cbv zeta. set (E := env0 act_ok). set (d := broken_flow _). set (s := started _ _ _ _).
  split_and!; [by intros c [=]|apply (started_running _ _ _ _ 0)|by apply flow_of_built; ev|intros n v; by eexists|done| | |].
  - destruct (some_check (fun h => t_id <$> start_tasks (eh_tasks h) = ["h1"; "h2"] /\
      Forall (fun tk => is_Some (t_act tk)) (start_tasks (eh_tasks h))) (d_eh d)) as (h & Hh & H1 & H2); [ev|].
    exists h. split_and!; [done|done|]. intros tk Htk Hn. rewrite Forall_forall in H2. apply H2 in Htk as [? Htk]. congruence.
  - destruct (eval_check E s (fun t x r s1 => bool_decide (r = inr EvalDone /\ ti_inst x = 0%nat /\ t_id (ti_task x) = "a" /\ pending s1 = [(2, 0, "e")]%nat) &&
      existsb (fun l => bool_decide (l_type l = LtExpression /\ l_expr l = Some "err")) (t_to (ti_task x))))
      as (t & x & r & s1 & Ev & H); [ev|].
    apply andb_true_iff in H as [H Hb]. apply bool_decide_eq_true in H as (-> & H1 & H2 & H3).
    exists t, x, s1. split_and!; [assumption..|]. by apply broken_check.
  - destruct (some_check (fun y => i_handling y = false) (s_insts s !! 0%nat)) as (y & Hy & H); [ev|]. intros y'. rewrite Hy. by intros [= <-].
Qed.

(** C21: an evaluation of a task of a subflow fails, no link of the task handles errors and the subflow has no error
    handler (or it is the error handler that fails): the step leaves the subflow failed, and the task that started it is
    queued, behind all other work.
    Expressions of a subflow that fail: [C39_subflow] and [C39_handling]. Missing: configurations that ask for recording without a recorder, where the
    host is never queued; [C21_refuted] shows that another branch of the subflow can hide the error afterwards. *)
Theorem C21_host_queued_partial : forall E d uri s t x e s1 y ht,
  running E d uri s -> cov_ok E -> recordable E -> evaluates E s t x (inl e) s1 -> ti_inst x <> 0%nat -> no_error_link (ti_task x) ->
  s_insts s !! ti_inst x = Some y -> i_host y = Some ht -> i_handling y = true \/ d_eh (i_def y) = None ->
  (exists y', s_insts (do_step E s).2 !! ti_inst x = Some y' /\ i_status y' = FFailed) /\
  exists w, s_queue (do_step E s).2 = s_queue s1 ++ [(w, ht)].
Proof. exact resumed_host. Qed.
Print Assumptions C21_host_queued_partial.

(** C21: and when the host, which waits, is evaluated next (with no step of the subflow in between), this evaluation
    fails with the error of the subflow: [C06_stops] and [C13_handler] tell what happens with it.
    Missing: as above; hosts with PostEval (which may do anything with the error); a host with retries evaluates again. *)
Theorem C21_host_fails_partial : forall E d uri s t x e s1 y ht s' xh r s2,
  running E d uri s -> cov_ok E -> recordable E -> evaluates E s t x (inl e) s1 -> ti_inst x <> 0%nat -> no_error_link (ti_task x) ->
  s_insts s !! ti_inst x = Some y -> i_host y = Some ht -> i_handling y = true \/ d_eh (i_def y) = None ->
  undisturbed E ht (do_step E s).2 s' -> evaluates E s' ht xh r s2 -> ti_status xh = TWaiting -> no_post E xh -> t_retry (ti_task xh) = None ->
  r = inl e.
Proof. exact host_fails. Qed.
Print Assumptions C21_host_fails_partial.

(** The task "x" of a subflow fails while "d" of the main flow is queued; after "d" the host is evaluated. *)
Example C21_host_example :
  let E := env_sub_err in
  let s := after E 2 (started E host_flow "u" ∅) in
  let s' := after E 1 (do_step E s).2 in
  running E host_flow "u" s /\ cov_ok E /\ recordable E /\
  exists t x s1 y ht xh r s2, evaluates E s t x (inl (EOther "x")) s1 /\ ti_inst x = 1%nat /\ no_error_link (ti_task x) /\
    pending s1 = [(4, 0, "d")]%nat /\
    s_insts s !! 1%nat = Some y /\ i_host y = Some ht /\ d_eh (i_def y) = None /\
    undisturbed E ht (do_step E s).2 s' /\ evaluates E s' ht xh r s2 /\ ti_inst xh = 0%nat /\ t_id (ti_task xh) = "a" /\
    ti_status xh = TWaiting /\ no_post E xh /\ t_retry (ti_task xh) = None.
Proof.
  cbv zeta. set (E := env_sub_err). set (s := after _ _ (started _ _ _ _)). set (s' := after _ 1 _).
  split_and!; [apply started_running|by intros c [=]|exists RMOff; split; [done|by right]|].
  destruct (eval_check E s (fun t x r s1 => bool_decide (r = inl (EOther "x") /\ ti_inst x = 1%nat /\
    Forall (fun l => l_type l <> LtError) (t_to (ti_task x)) /\ pending s1 = [(4, 0, "d")]%nat))) as (t & x & r & s1 & Ev & H); [ev|].
  apply bool_decide_eq_true in H as (-> & H1 & H2 & H3).
  destruct (some_check (fun y => i_host y = Some 0%nat /\ (if d_eh (i_def y) then true else false) = false) (s_insts s !! 1%nat)) as (y & Hy & H4 & H5); [ev|].
  destruct (eval_check E s' (fun u xh r s2 => bool_decide (u = 0%nat /\ ti_inst xh = 0%nat /\ t_id (ti_task xh) = "a" /\ ti_status xh = TWaiting /\ (if t_retry (ti_task xh) then true else false) = false))) as (u & xh & r & s2 & Ev2 & H); [ev|].
  apply bool_decide_eq_true in H as (-> & H6 & H7 & H8 & H9).
  exists t, x, s1, y, 0%nat, xh, r, s2. split_and!; [assumption|assumption|by apply no_error_check|assumption|assumption|assumption|by destruct (d_eh _)| |assumption|assumption|assumption|assumption|by intros n v|by destruct (t_retry _)].
  apply calm_undisturbed; [constructor|ev].
Qed.

(** C20: an activity of a subflow returns data, and its task is done: when the host, which waits, is evaluated next (with
    no step of the subflow in between), it is done, and after that step the attributes for the host's outputs hold the
    data.
    Missing: interceptors; a subflow that completes without a Return, see [C20_refuted]; hosts with PostEval; loops,
    which stall, see [C16_refuted]. *)
Theorem C20_host_outputs_partial : forall E d uri s t x s1 l1 dt er l2 y ht s' xh r s2 ac,
  e_icpt E = None ->
  running E d uri s -> built d -> built_env E -> links_ok E -> evaluates E s t x (inr EvalDone) s1 -> ti_inst x <> 0%nat ->
  happened s s1 = l1 ++ EvReturn (ti_inst x) (Some dt) er :: l2 ->
  (forall j a b, EvReturn j a b ∉ l2) -> (forall a b, EvResult a b ∉ l2) ->
  s_insts s !! ti_inst x = Some y -> i_host y = Some ht ->
  undisturbed E ht (do_step E s).2 s' -> evaluates E s' ht xh r s2 -> ti_status xh = TWaiting -> no_post E xh ->
  t_type (ti_task xh) = TBasic -> t_loop (ti_task xh) = None -> t_act (ti_task xh) = Some ac ->
  r = inr EvalDone /\
  forall ns n v, ac_outs ac = Some ns -> n ∈ ns -> dt !! n = Some v ->
    attr_of (do_step E s').2 (ti_inst xh) (out_key (t_id (ti_task xh)) n) = Some v.
Proof. exact host_gets. Qed.
Print Assumptions C20_host_outputs_partial.

(** The task "x" of a subflow returns while "d" of the main flow is queued; after "d" the host is evaluated. *)
Example C20_host_outputs_example :
  let E := env_sub_out in
  let s := after E 2 (started E host_flow "u" ∅) in
  let s' := after E 1 (do_step E s).2 in
  e_icpt E = None /\ running E host_flow "u" s /\ built host_flow /\ built_env E /\ links_ok E /\
  exists t x s1 l1 l2 y ht xh r s2 ac, evaluates E s t x (inr EvalDone) s1 /\ ti_inst x = 1%nat /\
    happened s s1 = l1 ++ EvReturn 1 (Some {["o" := VInt 5]}) None :: l2 /\
    (forall j a b, EvReturn j a b ∉ l2) /\ (forall a b, EvResult a b ∉ l2) /\
    s_insts s !! 1%nat = Some y /\ i_host y = Some ht /\
    undisturbed E ht (do_step E s).2 s' /\ evaluates E s' ht xh r s2 /\ ti_inst xh = 0%nat /\ t_id (ti_task xh) = "a" /\
    ti_status xh = TWaiting /\ no_post E xh /\ t_type (ti_task xh) = TBasic /\ t_loop (ti_task xh) = None /\
    t_act (ti_task xh) = Some ac /\ ac_outs ac = Some ["o"].
Proof.
  cbv zeta. set (E := env_sub_out). set (s := after _ _ (started _ _ _ _)). set (s' := after _ 1 _).
  split_and!; [done|apply started_running|by apply flow_of_built; ev|exact env_sub_built|apply (env1_links act_ok)|].
  destruct (eval_check E s (fun t x r s1 => bool_decide (r = inr EvalDone /\ ti_inst x = 1%nat /\
    last_event answered (happened s s1) = Some (Some 1%nat, Some {["o" := VInt 5]}, None))))
    as (t & x & r & s1 & Ev & H); [ev|].
  apply bool_decide_eq_true in H as (-> & H1 & H3). apply last_return in H3 as (l1 & l2 & H3 & H4 & H5).
  destruct (some_check (fun y => i_host y = Some 0%nat) (s_insts s !! 1%nat)) as (y & Hy & H6); [ev|].
  destruct (eval_check E s' (fun u xh r s2 => bool_decide (u = 0%nat /\ ti_inst xh = 0%nat /\ t_id (ti_task xh) = "a" /\ ti_status xh = TWaiting /\
    t_type (ti_task xh) = TBasic /\ (if t_loop (ti_task xh) then true else false) = false /\
    (ac_outs <$> t_act (ti_task xh)) = Some (Some ["o"])))) as (u & xh & r & s2 & Ev2 & H); [ev|].
  apply bool_decide_eq_true in H as (-> & H7 & H8 & H9 & H10 & H11 & H12). apply fmap_Some in H12 as (ac & H12 & H13). symmetry in H13.
  exists t, x, s1, l1, l2, y, 0%nat, xh, r, s2, ac.
  split_and!; [assumption|assumption|assumption|assumption|assumption|assumption|assumption| |assumption|assumption|assumption|assumption|by intros n v|assumption|by destruct (t_loop _)|assumption|assumption].
  apply calm_undisturbed; [constructor|ev].
Qed.

(** C24: the outputs of a waiting task whose flow has returned are kept like those of other evaluations: when it is
    evaluated again it is done, and output [n] stays under the name of the task and of the output as long as the task is
    not evaluated again.
    Missing: interceptors; activities with PostEval; names with dots, for which it is false, see [C24_refuted]. *)
Theorem C24_resumed_outputs_partial : forall E d uri s t x r s1 ac ns n v s',
  e_icpt E = None -> dotless_flow d -> dotless_env E -> ~ scoped E (out_key (t_id (ti_task x)) n) ->
  running E d uri s -> evaluates E s t x r s1 -> ti_status x = TWaiting -> no_post E x -> ti_rerr x = None ->
  t_type (ti_task x) = TBasic -> t_loop (ti_task x) = None ->
  t_act (ti_task x) = Some ac -> ac_outs ac = Some ns -> n ∈ ns -> ti_out x !! n = Some v ->
  meanwhile E (ti_inst x) (t_id (ti_task x)) (do_step E s).2 s' ->
  r = inr EvalDone /\ attr_of s' (ti_inst x) (out_key (t_id (ti_task x)) n) = Some v.
Proof. exact resumed_own. Qed.
Print Assumptions C24_resumed_outputs_partial.

Example C24_resumed_outputs_example :
  let E := env_sub_out in
  let s := after E 4 (started E host_flow "u" ∅) in
  dotless_flow host_flow /\ dotless_env E /\ ~ scoped E (out_key "a" "o") /\ running E host_flow "u" s /\
  (exists t x r s1 ac, evaluates E s t x r s1 /\ ti_inst x = 0%nat /\ t_id (ti_task x) = "a" /\ ti_status x = TWaiting /\ no_post E x /\
     ti_rerr x = None /\ t_type (ti_task x) = TBasic /\ t_loop (ti_task x) = None /\ t_act (ti_task x) = Some ac /\ ac_outs ac = Some ["o"] /\
     ti_out x !! "o" = Some (VInt 5)) /\
  meanwhile E 0 "a" (do_step E s).2 (after E 1 (do_step E s).2) /\
  evaluations (after E 1 (do_step E s).2) = [(0, "a"); (0, "c"); (1, "x"); (0, "d"); (0, "b")]%nat.
Proof.
  cbv zeta. set (E := env_sub_out). set (s := after _ _ (started _ _ _ _)).
  split; [apply dotless_check; ev|]. split; [|split; [|split; [apply started_running|split; [|split; [apply idle_meanwhile; [apply mw_here|ev]|ev]]]]].
  - intros n u d [= <-]. apply dotless_check; ev.
  - intros (j & v & [Hs|(a' & Ha & _)]); [|done]. cbn in Hs. revert Hs. unfold sub_act. repeat case_bool_decide; cbn; tauto.
  - destruct (eval_check E s (fun t x r s1 => bool_decide (ti_inst x = 0%nat /\ t_id (ti_task x) = "a" /\ ti_status x = TWaiting /\ ti_rerr x = None /\
      t_type (ti_task x) = TBasic /\ (if t_loop (ti_task x) then true else false) = false /\ (ac_outs <$> t_act (ti_task x)) = Some (Some ["o"]) /\
      ti_out x !! "o" = Some (VInt 5)))) as (t & x & r & s1 & Ev & H); [ev|].
    apply bool_decide_eq_true in H as (H1 & H2 & H3 & H4 & H5 & H6 & H7 & H8). apply fmap_Some in H7 as (ac & H7 & H9). symmetry in H9.
    exists t, x, r, s1, ac. split_and!; [assumption|assumption|assumption|assumption|by intros n' v'|assumption|assumption|by destruct (t_loop _)|assumption|assumption|assumption].
Qed.

(** C22: an evaluation of a task of a subflow fails, no link of the task handles errors, and the subflow has an error
    handler that has not been started and whose start tasks it does not know yet: after the step the subflow has the status
    it had; the start tasks of its handler, in order, are queued in it behind all work that was queued, and it knows them
    beside its other tasks; its error attributes describe the error. All other flows are exactly as before the step, but the
    main flow has lost its task table (see [C22_refuted]); all other task instances are as before.
    Missing: that the table of the main flow is kept, which is false. *)
Theorem C22_subflow_handler_partial : forall E d uri s t x e s1 i y h,
  running E d uri s -> cov_ok E -> settings_ok E -> e_conc E = false ->
  evaluates E s t x (inl e) s1 -> ti_inst x = i -> i <> 0%nat -> s_insts s !! i = Some y -> built (i_def y) -> d_eh (i_def y) = Some h ->
  (forall tk, tk ∈ start_tasks (eh_tasks h) -> t_act tk <> None /\ i_tasks y !! t_id tk = None) ->
  no_error_link (ti_task x) -> i_handling y = false ->
  (exists y', s_insts (do_step E s).2 !! i = Some y' /\ i_status y' = i_status y /\ i_handling y' = true /\
    (forall id, is_Some (i_tasks y' !! id) <-> is_Some (i_tasks y !! id) \/ id ∈ t_id <$> start_tasks (eh_tasks h)) /\
    describes (ti_task x) e (i_attrs y' !! "_E") /\ describes (ti_task x) e (i_attrs y' !! ("_E." +:+ t_id (ti_task x)))) /\
  (fun p => (p.1.2, p.2)) <$> pending (do_step E s).2 =
    ((fun p => (p.1.2, p.2)) <$> pending s1) ++ ((fun tk => (i, t_id tk)) <$> start_tasks (eh_tasks h)) /\
  (forall j yj, s_insts s !! j = Some yj -> j <> i ->
     s_insts (do_step E s).2 !! j = Some (if decide (j = 0%nat) then set_i_tasks ∅ yj else yj)) /\
  (forall u xu, s_tis s !! u = Some xu -> u <> t -> s_tis (do_step E s).2 !! u = Some xu).
Proof. exact sub_takes_over. Qed.
Print Assumptions C22_subflow_handler_partial.

(** "x" fails in the subflow, while "y" and a task of the main flow are queued. *)
Example C22_subflow_handler_example :
  let E := env_sub_eh in
  let s := after E 2 (started E host_flow "u" ∅) in
  running E host_flow "u" s /\ cov_ok E /\ settings_ok E /\ e_conc E = false /\
  (exists t x e s1, evaluates E s t x (inl e) s1 /\ ti_inst x = 1%nat /\ no_error_link (ti_task x) /\
     pending s1 = [(4, 1, "y"); (5, 0, "d")]%nat) /\
  built eh_sub /\
  exists y h, s_insts s !! 1%nat = Some y /\ i_def y = eh_sub /\ i_handling y = false /\ d_eh eh_sub = Some h /\
    t_id <$> start_tasks (eh_tasks h) = ["h1"; "h2"] /\
    forall tk, tk ∈ start_tasks (eh_tasks h) -> t_act tk <> None /\ i_tasks y !! t_id tk = None.
Proof.
  cbv zeta. set (E := env_sub_eh). set (s := after _ _ _).
  split; [apply started_running|]. split; [by intros c [=]|]. split; [by intros n v; eexists|]. split; [done|]. split; [|split; [by apply flow_of_built; ev|]].
  - destruct (eval_check E s (fun t x r s1 => bool_decide (r = inl (EOther "x") /\ ti_inst x = 1%nat /\ pending s1 = [(4, 1, "y"); (5, 0, "d")]%nat) &&
      bool_decide (Forall (fun l => l_type l <> LtError) (t_to (ti_task x))))) as (t & x & r & s1 & Ev & H); [ev|].
    apply andb_true_iff in H as [H H4%bool_decide_eq_true]. apply bool_decide_eq_true in H as (-> & H1 & H2).
    exists t, x, (EOther "x"), s1. split; [assumption|]. split; [assumption|]. split; [by apply no_error_check|assumption].
  - pose (y := match s_insts s !! 1%nat with Some y => y | None => mk_inst None false 0 eh_sub "" ∅ ∅ false None None ∅ false end).
    pose (h := match d_eh eh_sub with Some h => h | None => mk_eh [] [] end).
    exists y, h. split; [ev|]. split; [ev|]. split; [ev|]. split; [ev|]. split; [ev|].
    assert (forallb (fun tk => match t_act tk, i_tasks y !! t_id tk with Some _, None => true | _, _ => false end) (start_tasks (eh_tasks h)) = true) as H by ev.
    intros tk Htk. rewrite forallb_forall in H. apply elem_of_list_In, H in Htk. destruct (t_act tk), (i_tasks y !! t_id tk); done.
Qed.
