(** Branches with an otherwise link. *)
From Verif Require Import Examples17.
Local Open Scope Z_scope.

(** C52: a task with expression links and one otherwise link is done. Then either one of the expressions holds and the task behind its link is entered, or
    none holds and the task behind the otherwise link is entered: that task is scheduled at once if all its incoming links are decided.
    Missing: tasks with several otherwise links, and tasks with an otherwise link and no expression link, for which it is false ([C52_refuted]). *)
Theorem C52_branch_partial : forall E d uri s t x s1 y1 lo,
  running E d uri s -> built d -> built_env E -> cov_ok E -> links_ok E -> settings_ok E -> e_conc E = false ->
  evaluates E s t x (inr EvalDone) s1 -> s_insts s1 !! ti_inst x = Some y1 -> i_force y1 = false ->
  NoDup (t_id <$> all_tasks (i_def y1)) -> (forall tk, tk ∈ all_tasks (i_def y1) -> t_act tk <> None) ->
  let ls := t_to (ti_task x) in
  lo ∈ ls -> l_type lo = LtExprOtherwise -> (forall l, l ∈ ls -> l_type l = LtExprOtherwise -> l = lo) ->
  (exists l, l ∈ ls /\ l_type l = LtExpression) ->
  let scheduled l := exists tk, leads_to (i_def y1) l tk /\
    (decided_with y1 ls tk = true -> (ti_inst x, t_id tk) ∈ waiting_work (do_step E s).2) in
  (exists l, l ∈ ls /\ l_type l = LtExpression /\ EvLinkEval (ti_inst x) (l_id l) true ∈ happened s1 (do_step E s).2 /\ scheduled l) \/
  ((forall l, l ∈ ls -> l_type l = LtExpression -> EvLinkEval (ti_inst x) (l_id l) false ∈ happened s1 (do_step E s).2) /\ scheduled lo).
Proof. exact one_branch_taken. Qed.
Print Assumptions C52_branch_partial.

(** Two expressions that do not hold, and the otherwise link between them. *)
Example C52_branch_example :
  let E := env1 act_ok in let s := (run_begin E ro0 ∅ (init_st branch_flow "u")).2 in
  running E branch_flow "u" s /\ built branch_flow /\ built_env E /\ cov_ok E /\ links_ok E /\ settings_ok E /\ e_conc E = false /\
  (exists t x s1 y1 lo, evaluates E s t x (inr EvalDone) s1 /\ s_insts s1 !! ti_inst x = Some y1 /\ i_force y1 = false /\
    NoDup (t_id <$> all_tasks (i_def y1)) /\ (forall tk, tk ∈ all_tasks (i_def y1) -> t_act tk <> None) /\
    lo ∈ t_to (ti_task x) /\ l_type lo = LtExprOtherwise /\ (forall l, l ∈ t_to (ti_task x) -> l_type l = LtExprOtherwise -> l = lo) /\
    (exists l, l ∈ t_to (ti_task x) /\ l_type l = LtExpression)) /\
  waiting_work (do_step E s).2 = [(0, "c")]%nat /\ evaluations (run_flow E ro0 branch_flow "u" ∅).2 = [(0, "a"); (0, "c"); (0, "e")]%nat.
Proof.
  cbv zeta. set (E := env1 act_ok). set (s := (run_begin _ _ _ _).2).
  assert ((run_begin E ro0 ∅ (init_st branch_flow "u")).1 = Ok tt) as Hb by ev.
  split; [by apply begin_running|]. split; [apply flow_of_built; ev|]. split; [done|]. split; [done|]. split; [apply env1_links|]. split; [apply env1_settings|].
  split; [done|]. split; [|split; ev].
  destruct (eval_check E s (fun t x r s1 => match s_insts s1 !! ti_inst x with Some y1 => bool_decide (r = inr EvalDone /\ i_force y1 = false /\
    NoDup (t_id <$> all_tasks (i_def y1)) /\ Forall (fun tk => is_Some (t_act tk)) (all_tasks (i_def y1)) /\
    l_type <$> t_to (ti_task x) = [LtExpression; LtExprOtherwise; LtExpression]) | None => false end)) as (t & x & r & s1 & Ev & H); [ev|].
  destruct (s_insts s1 !! ti_inst x) as [y1|] eqn:Hy; [|done].
  apply bool_decide_eq_true in H as (-> & H1 & H2 & H3 & H4).
  destruct (t_to (ti_task x)) as [|l1 [|l2 [|l3 [|]]]] eqn:Hto; try done. injection H4 as E1 E2 E3.
  exists t, x, s1, y1, l2. rewrite Hto. split; [done|]. split; [done|]. split; [done|]. split; [done|]. split.
  { intros tk Htk Hn. rewrite Forall_forall in H3. specialize (H3 tk Htk). rewrite Hn in H3. by destruct H3. }
  split; [by right; left|]. split; [done|]. split.
  - intros l Hl Hty. rewrite !elem_of_cons, elem_of_nil in Hl. destruct Hl as [->|[->|[->|[]]]]; congruence.
  - exists l1. split; [by left|done].
Qed.

(** C52 is false for a task with two otherwise links, whose expression does not hold: only the task behind the last one runs. And for a task with an otherwise
    link and no expression link: no task behind it runs; the flow completes. *)
Theorem C52_refuted :
  (exists E d uri ins tk, built d /\ acyclic d /\ sync_env true E /\ links_ok E /\ settings_ok E /\ e_icpt E = None /\ e_conc E = false /\
    tk ∈ d_tasks d /\ (fun l => (l_type l, l_to l)) <$> t_to tk = [(LtExpression, "b"); (LtExprOtherwise, "c"); (LtExprOtherwise, "d")] /\
    let s := (run_flow E ro0 d uri ins).2 in
    (run_flow E ro0 d uri ins).1 = Ok tt /\ main_status s = Some FCompleted /\ (Spec.link_values 0 (trace s)).*2 = [false] /\ evaluations s = [(0, t_id tk); (0, "d")]%nat) /\
  (exists E d uri ins tk, built d /\ acyclic d /\ sync_env true E /\ links_ok E /\ settings_ok E /\ e_icpt E = None /\ e_conc E = false /\
    tk ∈ d_tasks d /\ (fun l => (l_type l, l_to l)) <$> t_to tk = [(LtExprOtherwise, "b")] /\
    let s := (run_flow E ro0 d uri ins).2 in
    (run_flow E ro0 d uri ins).1 = Ok tt /\ main_status s = Some FCompleted /\ Spec.link_values 0 (trace s) = [] /\ evaluations s = [(0, t_id tk)]%nat).
Proof. exact otherwise_lost. Qed.
Print Assumptions C52_refuted.
