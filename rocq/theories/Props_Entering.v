(** Property theorems: errors while tasks are entered. Contains nothing else. *)
From Verif Require Import Entering Examples12.
Local Open Scope Z_scope.

(** C40: settings mappers fail, [tk] is the first start task with settings. When a flow has been started, exactly the start tasks before [tk] are queued,
    in their order, whatever comes after [tk]; the flow is active and nothing has been evaluated or delivered. *)
Theorem C40_start : forall E e, (forall n v, e_setmap E n v = XErr e) -> forall d uri ins pre tk rest,
  start_tasks (d_tasks d) = pre ++ tk :: rest -> NoDup (t_id <$> (pre ++ tk :: rest)) ->
  is_Some (t_act tk) -> t_set tk = true -> Forall (fun u => is_Some (t_act u) /\ t_set u = false) pre ->
  let s := started E d uri ins in
  main_status s = Some FActive /\ evaluations s = [] /\ delivered s = [] /\
  Forall2 (fun u p => exists x, s_tis s !! p.2 = Some x /\ ti_task x = u /\ ti_inst x = 0%nat) pre (s_queue s).
Proof. exact settings_start. Qed.
Print Assumptions C40_start.

(** C40: if [tk] is the first of the start tasks, the flow stays active for ever, nothing is evaluated, nothing is delivered and the error handler is not
    started. *)
Theorem C40_stalls : forall E e, (forall n v, e_setmap E n v = XErr e) -> forall d uri ins tk rest,
  start_tasks (d_tasks d) = tk :: rest -> NoDup (t_id <$> (tk :: rest)) -> is_Some (t_act tk) -> t_set tk = true ->
  forall n, let s := after E n (started E d uri ins) in main_status s = Some FActive /\ evaluations s = [] /\ delivered s = [].
Proof. exact settings_stall. Qed.
Print Assumptions C40_stalls.

(** Tasks "a", "b" with settings and "c"; tasks "b" with settings and "c", with an error handler. *)
Example C40_start_example :
  let E := set_e_setmap (fun _ _ => XErr (EOther "settings")) (env0 act_ok) in let d := flow_of "f" [tr "a"; trm "b"; tr "c"] [] None None in
  (forall n v, e_setmap E n v = XErr (EOther "settings")) /\
  exists pre tk rest, start_tasks (d_tasks d) = pre ++ tk :: rest /\ pre <> [] /\ rest <> [] /\ NoDup (t_id <$> (pre ++ tk :: rest)) /\
  is_Some (t_act tk) /\ t_set tk = true /\ Forall (fun u => is_Some (t_act u) /\ t_set u = false) pre.
Proof.
  cbv zeta. split; [done|]. set (d := flow_of _ _ _ _ _). pose (l := start_tasks (d_tasks d)).
  assert (match l with [a; b; c] => bool_decide (NoDup (t_id <$> [a; b; c])) && (match t_act a, t_act b with Some _, Some _ => true | _, _ => false end) && negb (t_set a) && t_set b | _ => false end = true) as H by ev.
  fold l. destruct l as [|a [|b [|c [|]]]]; try done. apply andb_prop in H as [H Hb]. apply andb_prop in H as [H Ha]. apply andb_prop in H as [H Hac]. apply bool_decide_eq_true in H.
  exists [a], b, [c]. destruct (t_act a) eqn:H1; [|done]. destruct (t_act b) eqn:H2; [|done]. split_and!; try done.
  constructor; [|done]. rewrite H1. split; [done|]. by destruct (t_set a).
Qed.
Example C40_stalls_example :
  let E := set_e_setmap (fun _ _ => XErr (EOther "settings")) (env0 act_ok) in let d := flow_of "f" [trm "b"; tr "c"] [] (Some ([tr "h"], [])) None in
  (forall n v, e_setmap E n v = XErr (EOther "settings")) /\ is_Some (d_eh d) /\
  exists tk rest, start_tasks (d_tasks d) = tk :: rest /\ rest <> [] /\ NoDup (t_id <$> (tk :: rest)) /\ is_Some (t_act tk) /\ t_set tk = true.
Proof.
  cbv zeta. split; [done|]. set (d := flow_of _ _ _ _ _). split; [apply is_some_check; ev|]. pose (l := start_tasks (d_tasks d)).
  assert (match l with [b; c] => bool_decide (NoDup (t_id <$> [b; c])) && (match t_act b with Some _ => true | _ => false end) && t_set b | _ => false end = true) as H by ev.
  fold l. destruct l as [|b [|c [|]]]; try done. apply andb_prop in H as [H Hb]. apply andb_prop in H as [H Hac]. apply bool_decide_eq_true in H.
  exists b, [c]. destruct (t_act b) eqn:H2; [|done]. by split_and!.
Qed.
