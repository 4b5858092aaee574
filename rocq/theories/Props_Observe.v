(** Observers: that they change nothing; interceptors: what mocked tasks yield. *)
From Verif Require Import Mock Observers Examples4 Examples7.
Local Open Scope Z_scope.

(** C32, second part: a mocked task evaluates successfully; its outputs, in the task instance and in the scope of the flow,
    are those of the interceptor: under the name of each output, and as the last element of the array in which a loop
    collects its outputs ([b0]: what it collected before). When the types of the values are those of the outputs. (The
    condition of a doWhile loop is evaluated after the round and may fail.) *)
Theorem C32_mock_outputs : forall E s t x r s1 y ac c b0,
  evaluates E s t x r s1 -> ti_status x <> TWaiting -> makes_round E t s x -> t_act (ti_task x) = Some ac ->
  s_insts s !! ti_inst x = Some y -> mappers_ok E ->
  (accumulates (ti_task x) = true -> held E (attr_of s (ti_inst x) (all_key (t_id (ti_task x)))) b0) ->
  task_icpt E (d_name (i_def y) +:+ "-" +:+ t_id (ti_task x)) = Some c -> tc_type c = 4 ->
  tc_skipexec c = true \/ (exists c', task_icpt E (t_id (ti_task x)) = Some c' /\ tc_skip c' = true) ->
  (forall v n w, tc_out c !! n = Some w -> e_totype E true v n w = Some w) ->
  match t_type (ti_task x) with TBasic => r = inr EvalDone | TIterator => r = inr EvalRepeat | TDoWhile => True end /\
  exists x1, s_tis s1 !! t = Some x1 /\ (forall n w, tc_out c !! n = Some w -> ti_out x1 !! n = Some w) /\
    (accumulates (ti_task x) = false \/ acc_apply (ti_task x) = true -> forall ns n w, ac_outs ac = Some ns -> n ∈ ns -> tc_out c !! n = Some w ->
       attr_of s1 (ti_inst x) (out_key (t_id (ti_task x)) n) = Some w) /\
    (accumulates (ti_task x) = true -> attr_of s1 (ti_inst x) (all_key (t_id (ti_task x))) = Some (VArr (b0 ++ [out_obj x1]))).
Proof. exact mock_outputs. Qed.
Print Assumptions C32_mock_outputs.

(** "c" is mocked. *)
Example C32_mock_outputs_example :
  let E := set_e_icpt (Some (mk_icpt {[ "f-c" := mk_ticpt false ∅ {[ "o" := VStr "mocked" ]} [] true 4 ]} true false)) (env1 act_ok) in
  let s := after E 2 (started E two_lines "u" ∅) in
  mappers_ok E /\ (forall v n w, e_totype E true v n w = Some w) /\
  exists t x r s1 y ac c, evaluates E s t x r s1 /\ ti_inst x = 0%nat /\ t_id (ti_task x) = "c" /\ ti_status x <> TWaiting /\
    t_type (ti_task x) = TBasic /\ t_act (ti_task x) = Some ac /\ t_loop (ti_task x) = None /\ s_insts s !! ti_inst x = Some y /\
    task_icpt E (d_name (i_def y) +:+ "-" +:+ t_id (ti_task x)) = Some c /\ tc_type c = 4 /\ tc_skipexec c = true /\
    ac_outs ac = Some ["o"] /\ tc_out c !! "o" = Some (VStr "mocked") /\
    attr_of s1 0 "_A.c.o" = Some (VStr "mocked").
Proof.
  cbv zeta. split; [split_and!; intros; [by eexists|done|done]|]. split; [done|].
  set (E := set_e_icpt _ _). set (s := after _ _ _).
  destruct (eval_check E s (fun t x r s1 => bool_decide (ti_inst x = 0%nat /\ t_id (ti_task x) = "c" /\ ti_status x <> TWaiting /\
    t_type (ti_task x) = TBasic /\ t_loop (ti_task x) = None /\ (ac_outs <$> t_act (ti_task x)) = Some (Some ["o"]) /\
    attr_of s1 0 "_A.c.o" = Some (VStr "mocked")))) as (t & x & r & s1 & Ev & H); [ev|].
  apply bool_decide_eq_true in H as (H1 & H2 & H3 & H4 & H5 & H6 & H7).
  destruct (t_act (ti_task x)) as [ac|] eqn:Hac; [|done]. injection H6 as H6.
  assert (Hy : (d_name ∘ i_def) <$> s_insts s !! 0%nat = Some "f") by ev.
  destruct (s_insts s !! 0%nat) as [y|] eqn:Hy'; [|done]. injection Hy as Hn.
  exists t, x, r, s1, y, ac, (mk_ticpt false ∅ {[ "o" := VStr "mocked" ]} [] true 4). rewrite H1, H2, Hn.
  split; [exact Ev|]. split_and!; try done.
Qed.

(** The second round of a mocked loop that collects its outputs. *)
Example C32_mock_outputs_loop_example :
  let E := set_e_icpt (Some (mk_icpt {[ "f-a" := mk_ticpt false ∅ {[ "o" := VStr "mocked" ]} [] true 4 ]} true false)) env_echo in
  let s := after E 2 (started E acc_flow "u" ∅) in
  mappers_ok E /\ (forall v n w, e_totype E true v n w = Some w) /\
  exists t x r s1 y ac c, evaluates E s t x r s1 /\ ti_inst x = 0%nat /\ t_id (ti_task x) = "a" /\ ti_status x <> TWaiting /\
    t_type (ti_task x) = TIterator /\ makes_round E t s x /\ t_act (ti_task x) = Some ac /\ accumulates (ti_task x) = true /\
    s_insts s !! ti_inst x = Some y /\
    held E (attr_of s 0 (all_key "a")) [VObj [("o", VStr "mocked")]] /\
    task_icpt E (d_name (i_def y) +:+ "-" +:+ t_id (ti_task x)) = Some c /\ tc_type c = 4 /\ tc_skipexec c = true /\
    attr_of s1 0 "_A.a" = Some (VArr [VObj [("o", VStr "mocked")]; VObj [("o", VStr "mocked")]]).
Proof.
  cbv zeta. split; [split_and!; intros; [by eexists|done|done]|]. split; [done|].
  set (E := set_e_icpt _ _). set (s := after _ _ _).
  destruct (eval_check E s (fun t x r s1 => bool_decide (ti_inst x = 0%nat /\ t_id (ti_task x) = "a" /\ ti_status x <> TWaiting /\
    t_type (ti_task x) = TIterator /\ accumulates (ti_task x) = true /\ attr_of s1 0 "_A.a" = Some (VArr [VObj [("o", VStr "mocked")]; VObj [("o", VStr "mocked")]])) &&
    (if t_act (ti_task x) then true else false) &&
    match ti_wd x !! "_iterator" with Some (WIter (ItArr c l)) => bool_decide (-1 <= c) && bool_decide (c + 1 < Z.of_nat (length l)) | _ => false end)) as (t & x & r & s1 & Ev & H); [ev|].
  apply andb_true_iff in H as [[H H7]%andb_true_iff H8]. apply bool_decide_eq_true in H as (H1 & H2 & H3 & H4 & H5 & H6).
  destruct (t_act (ti_task x)) as [ac|] eqn:Hac; [|done].
  assert (Hy : (d_name ∘ i_def) <$> s_insts s !! 0%nat = Some "f") by ev.
  destruct (s_insts s !! 0%nat) as [y|] eqn:Hy'; [|done]. injection Hy as Hn.
  exists t, x, r, s1, y, ac, (mk_ticpt false ∅ {[ "o" := VStr "mocked" ]} [] true 4). rewrite H1, H2, Hn.
  assert (Hh : held E (attr_of s 0 (all_key "a")) [VObj [("o", VStr "mocked")]]).
  { assert (Ha : attr_of s 0 (all_key "a") = Some (VArr [VObj [("o", VStr "mocked")]])) by ev. rewrite Ha. reflexivity. }
  assert (Hc : task_icpt E ("f" +:+ "-" +:+ "a") = Some (mk_ticpt false ∅ {[ "o" := VStr "mocked" ]} [] true 4)) by ev.
  assert (Hm : makes_round E t s x).
  { intros _. destruct (ti_wd x !! "_iterator") as [[[c l|c n|c l]| | |]|]; try discriminate H8.
    apply andb_true_iff in H8 as [G1%bool_decide_eq_true G2%bool_decide_eq_true]. split; assumption. }
  clearbody s. repeat (split; [first [assumption|reflexivity]|]). assumption.
Qed.

(** C32, third part: a task with a mocked exception fails with the message and the data given; it is not tried again, whatever
    its retry settings; a loop ends there. *)
Theorem C32_mock_exception : forall E s t x r s1 y ac c msg,
  evaluates E s t x r s1 -> ti_status x <> TWaiting -> makes_round E t s x -> t_act (ti_task x) = Some ac ->
  s_insts s !! ti_inst x = Some y -> mappers_ok E ->
  task_icpt E (d_name (i_def y) +:+ "-" +:+ t_id (ti_task x)) = Some c -> tc_type c = 5 ->
  tc_skipexec c = true \/ (exists c', task_icpt E (t_id (ti_task x)) = Some c' /\ tc_skip c' = true) ->
  tc_out c !! "message" = Some (VStr msg) ->
  exists dt, r = inl (EAct msg "" dt false (t_id (ti_task x))) /\ (forall v, v <> VNil -> tc_out c !! "data" = Some v -> dt = v).
Proof. exact mock_exception. Qed.
Print Assumptions C32_mock_exception.

(** "c" is to fail. *)
Example C32_mock_exception_example :
  let E := set_e_icpt (Some (mk_icpt {[ "f-c" := mk_ticpt false ∅ {[ "message" := VStr "m"; "data" := VInt 7 ]} [] true 5 ]} true false)) (env1 act_ok) in
  let s := after E 2 (started E two_lines "u" ∅) in
  mappers_ok E /\
  exists t x r s1 y ac c, evaluates E s t x r s1 /\ ti_inst x = 0%nat /\ t_id (ti_task x) = "c" /\ ti_status x <> TWaiting /\
    t_type (ti_task x) = TBasic /\ t_act (ti_task x) = Some ac /\ s_insts s !! ti_inst x = Some y /\
    task_icpt E (d_name (i_def y) +:+ "-" +:+ t_id (ti_task x)) = Some c /\ tc_type c = 5 /\ tc_skipexec c = true /\
    tc_out c !! "message" = Some (VStr "m") /\ tc_out c !! "data" = Some (VInt 7) /\ r = inl (EAct "m" "" (VInt 7) false "c").
Proof.
  cbv zeta. split; [split_and!; intros; [by eexists|done|done]|].
  set (E := set_e_icpt _ _). set (s := after _ _ _).
  destruct (eval_check E s (fun t x r s1 => bool_decide (ti_inst x = 0%nat /\ t_id (ti_task x) = "c" /\ ti_status x <> TWaiting /\
    t_type (ti_task x) = TBasic /\ (ac_outs <$> t_act (ti_task x)) = Some (Some ["o"]) /\
    r = inl (EAct "m" "" (VInt 7) false "c")))) as (t & x & r & s1 & Ev & H); [ev|].
  apply bool_decide_eq_true in H as (H1 & H2 & H3 & H4 & H6 & H7).
  destruct (t_act (ti_task x)) as [ac|] eqn:Hac; [|done].
  assert (Hy : (d_name ∘ i_def) <$> s_insts s !! 0%nat = Some "f") by ev.
  destruct (s_insts s !! 0%nat) as [y|] eqn:Hy'; [|done]. injection Hy as Hn.
  exists t, x, r, s1, y, ac, (mk_ticpt false ∅ {[ "message" := VStr "m"; "data" := VInt 7 ]} [] true 5). rewrite H1, H2, Hn.
  split; [exact Ev|]. split_and!; try done.
Qed.

(** C31: a run with a flow event listener, a state recorder of any mode or change tracking ends as the run without: it delivers the
    same, evaluates the same tasks in the same order, goes through the same statuses and leaves the same values and task instances.
    For flows that return what they declare: every flow that completes declares no outputs or has returned some data before, and
    nobody returned or replied nothing afterwards; [C31_refuted] shows that flows that set their outputs in the scope only do not
    have this property. Where there is no recorder service, nothing is to be recorded, as RecordState panics then. *)
Theorem C31_same_result_partial : forall E lb rb xb tb ro d uri ins, e_listener E = false -> e_ext E = false -> recordable E ->
  let E' := observing lb rb xb tb E in recordable E' -> all_return (run_flow E ro d uri ins).2 ->
  let r := run_flow E ro d uri ins in let r' := run_flow E' ro d uri ins in
  r'.1 = r.1 /\ delivered r'.2 = delivered r.2 /\ evaluations r'.2 = evaluations r.2 /\ done_signals r'.2 = done_signals r.2 /\
  (forall i, statuses i r'.2 = statuses i r.2) /\ (forall i k, attr_of r'.2 i k = attr_of r.2 i k) /\ s_tis r'.2 = s_tis r.2.
Proof. exact same_result. Qed.
Print Assumptions C31_same_result_partial.

(** "a" starts a subflow that returns 5 and "b" returns 6; with all observers. *)
Example C31_same_result_example :
  let E' := observing true (Some RMFull) true true env_out in
  e_listener env_out = false /\ e_ext env_out = false /\ recordable env_out /\ recordable E' /\
  all_return (run_flow env_out ro0 out_flow "u" ∅).2 /\ ~ no_outputs out_flow /\
  main_status (run_flow E' ro0 out_flow "u" ∅).2 = Some FCompleted /\
  delivered (run_flow E' ro0 out_flow "u" ∅).2 = [(Some {["o" := VInt 6]}, None)] /\
  evaluations (run_flow E' ro0 out_flow "u" ∅).2 = [(0%nat, "a"); (1%nat, "x"); (0%nat, "b")].
Proof.
  cbv zeta. split; [done|]. split; [done|]. split; [exists RMOff; split; [done|by right]|]. split; [exists RMFull; split; [done|by left]|].
  split; [apply all_return_check; ev|]. split; [intros H; by specialize (H out_md eq_refl)|]. split; [ev|]. split; ev.
Qed.
