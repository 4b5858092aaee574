(** What happens when a task is left. *)
From Verif Require Import Fan Examples2.
Local Open Scope Z_scope.

(** C25: an evaluation finishes a task. Then, after the work that was waiting already, the successors
    behind followed links are scheduled in the order of [fan_out] (those whose incoming links are all
    decided); whatever the links that are not followed lead to comes later ([q]). *)
Theorem C25_order : forall E d uri s t x s1 y1,
  running E d uri s -> built d -> built_env E -> cov_ok E -> links_ok E -> settings_ok E -> e_conc E = false ->
  evaluates E s t x (inr EvalDone) s1 -> s_insts s1 !! ti_inst x = Some y1 -> i_force y1 = false ->
  NoDup (t_id <$> all_tasks (i_def y1)) -> (forall tk, tk ∈ all_tasks (i_def y1) -> t_act tk <> None) ->
  let ls := t_to (ti_task x) in
  exists v ts q,
    (forall l, l ∈ ls -> l_type l = LtExpression -> EvLinkEval (ti_inst x) (l_id l) (v (l_id l)) ∈ happened s1 (do_step E s).2) /\
    Forall2 (leads_to (i_def y1)) (List.filter (followed ls v) (fan_out (e_prio E) ls (followed ls v))) ts /\
    waiting_work (do_step E s).2 =
      waiting_work s1 ++ ((fun tk => (ti_inst x, t_id tk)) <$> List.filter (decided_with y1 ls) ts) ++ q.
Proof. exact successors. Qed.
Print Assumptions C25_order.

(** "a" has links of every kind; "g" must wait for "e" too. *)
Definition fan_flow : defn :=
  flow_of "f" [tr "a"; tr "b"; tr "c"; tr "d"; tr "e"; tr "g"; tr "h"; tr "k"]
    [llab "a" "b"; lexpr "a" "c" "false"; lexpr "a" "d" "true"; ldep "a" "g"; ldep "a" "e"; ldep "e" "g"; loth "a" "h"; ldep "c" "k"; lerr "a" "k"] None None.
Definition prio_env (p : bool) : env := set_e_prio p (env1 act_ok).
Example C25_example : forall p,
  let E := prio_env p in
  let s := (run_begin E ro0 ∅ (init_st fan_flow "u")).2 in
  running E fan_flow "u" s /\ built fan_flow /\ built_env E /\ cov_ok E /\ links_ok E /\ settings_ok E /\ e_conc E = false /\
  exists t x s1 y1, evaluates E s t x (inr EvalDone) s1 /\ s_insts s1 !! ti_inst x = Some y1 /\ i_force y1 = false /\
    NoDup (t_id <$> all_tasks (i_def y1)) /\ (forall tk, tk ∈ all_tasks (i_def y1) -> t_act tk <> None) /\
    length (t_to (ti_task x)) = 7%nat /\ waiting_work s1 = [] /\
    waiting_work (do_step E s).2 = (if p then [(0, "e"); (0, "b"); (0, "d")] else [(0, "e"); (0, "d"); (0, "b")])%nat.
Proof.
  intros p. cbv zeta. set (E := prio_env p). set (s := (run_begin _ _ _ _).2).
  assert ((run_begin E ro0 ∅ (init_st fan_flow "u")).1 = Ok tt) as Hb by (destruct p; ev).
  split_and!; [by apply begin_running|apply flow_of_built; ev|done|done|apply env1_links|apply env1_settings|done|].
  destruct (eval_check E s (fun t x r s1 => match s_insts s1 !! ti_inst x with Some y1 => bool_decide (r = inr EvalDone /\ i_force y1 = false /\
    NoDup (t_id <$> all_tasks (i_def y1)) /\ Forall (fun tk => is_Some (t_act tk)) (all_tasks (i_def y1)) /\
    length (t_to (ti_task x)) = 7%nat /\ waiting_work s1 = []) | None => false end)) as (t & x & r & s1 & Ev & H); [destruct p; ev|].
  destruct (s_insts s1 !! ti_inst x) as [y1|] eqn:Hy; [|done].
  apply bool_decide_eq_true in H as (-> & H1 & H2 & H3 & H4 & H5).
  exists t, x, s1, y1. split_and!; try assumption; [|destruct p; ev].
  intros tk Htk Hn. rewrite Forall_forall in H3. specialize (H3 tk Htk). rewrite Hn in H3. by destruct H3.
Qed.
