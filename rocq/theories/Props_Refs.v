(** References in mappings and expressions, and the subflow activity. *)
From Verif Require Import Props_Errors Props_Values Examples8.
Local Open Scope Z_scope.

(** C43: a task starts the subflow [d], found under [uri]: the task waits, its activity has been called once, with some
    inputs [ins], and there is a new flow, of [d], started by this task instance. From then on, whatever happens, a
    reference "$flow.n" in the new flow stands for input [n] of the task, if the flow declares [n], and for nothing
    otherwise. The inputs that the task does not map: see [C43_refuted]. For flows whose activities do not assign the
    attribute themselves. *)
Theorem C43_subflow_inputs : forall E pv d0 uri0 s t x r s1 uri d,
  e_icpt E = None -> mappers_ok E -> e_conc E = false -> settings_ok E ->
  running E d0 uri0 s -> evaluates E s t x r s1 -> ti_status x <> TWaiting -> t_type (ti_task x) = TBasic ->
  starts_subflow E x uri (DOk d) -> startable d -> NoDup (t_id <$> start_tasks (d_tasks d)) ->
  r = inr EvalWait /\
  exists ins it y', calls (ti_inst x) (t_id (ti_task x)) (happened s s1) = [(ins, it)] /\
    s_insts s !! S (s_sfctr s) = None /\
    s_insts (do_step E s).2 !! S (s_sfctr s) = Some y' /\ i_def y' = d /\ i_host y' = Some t /\
    forall s' v n, later E (do_step E s).2 s' -> sees s' (S (s_sfctr s)) v -> input_name n -> ~ scoped E n ->
      resolve pv v (RFlow n) = if declared d n then Some (default VNil (ins !! n)) else None.
Proof. intros E pv d0 uri0 s t x r s1 uri d A B C D. exact (subflow_inputs E d0 uri0 A B C D pv s t x r s1 uri d). Qed.
Print Assumptions C43_subflow_inputs.

(** The task maps one of the two inputs; seen by the second task of the subflow. *)
Example C43_subflow_inputs_example :
  let E := env_in in
  let s := started E in_flow "u" ∅ in
  let s' := after E 4 (do_step E s).2 in
  e_icpt E = None /\ mappers_ok E /\ e_conc E = false /\ settings_ok E /\ running E in_flow "u" s /\
  (exists t x s1, evaluates E s t x (inr EvalWait) s1 /\ ti_status x <> TWaiting /\ t_type (ti_task x) = TBasic /\
     starts_subflow E x "g" (DOk in_sub) /\ calls (ti_inst x) (t_id (ti_task x)) (happened s s1) = [({["p" := VInt 7]}, None)]) /\
  startable in_sub /\ NoDup (t_id <$> start_tasks (d_tasks in_sub)) /\
  later E (do_step E s).2 s' /\ input_name "p" /\ ~ scoped E "p" /\
  (exists t, sees s' (S (s_sfctr s)) (view_of s' t) /\ resolve (fun _ _ => None) (view_of s' t) (RFlow "p") = Some (VInt 7)).
Proof.
  cbv zeta. set (E := env_in). set (s := started _ _ _ _).
  split; [done|]. split; [apply env_in_mappers|]. split; [done|]. split; [apply env_in_settings|]. split; [apply (started_running _ _ _ _ 0)|].
  split; [|split; [|split; [apply NoDup_singleton|]]].
  - destruct (eval_check E s (fun t x r s1 => bool_decide (r = inr EvalWait /\ ti_status x <> TWaiting /\ t_type (ti_task x) = TBasic /\ t_id (ti_task x) = "a") &&
      one_call {["p" := VInt 7]} (calls (ti_inst x) (t_id (ti_task x)) (happened s s1))))
      as (t & x & r & s1 & Ev & H); [ev|].
    apply andb_true_iff in H as [H H4]. apply one_call_ok in H4. apply bool_decide_eq_true in H as (-> & H1 & H2 & H3). exists t, x, s1. split; [assumption|]. do 2 (split; [assumption|]). split; [|assumption].
    split; [done|]. intros n v _ Hv. change (act_in n v = subflow_eval (DOk in_sub) "g" v). unfold act_in. by rewrite bool_decide_eq_true_2 by congruence.
  - apply in_sub_startable.
  - split; [apply after_later; constructor|]. split; [split; [by apply no_dot_ok|done]|]. split; [apply env_in_unscoped|].
    exists 3%nat. split; [|ev]. apply sees_check; ev.
Qed.

(** C43: a subflow that declares a default for an input that the task does not map: the reference to the input stands for
    nil in the subflow; in the same flow, run by itself with the same inputs, it stands for the default. *)
Theorem C43_refuted : exists E d0 g uri s t x s1 ins it v v',
  running E d0 uri s /\ evaluates E s t x (inr EvalWait) s1 /\ starts_subflow E x "g" (DOk g) /\ startable g /\
  calls (ti_inst x) (t_id (ti_task x)) (happened s s1) = [(ins, it)] /\ ins !! "q" = None /\ declared g "q" = Some (VInt 2) /\
  sees (do_step E s).2 (S (s_sfctr s)) v /\ (forall pv, resolve pv v (RFlow "q") = Some VNil) /\
  sees (started E g "g" ins) 0 v' /\ (forall pv, resolve pv v' (RFlow "q") = Some (VInt 2)).
Proof. exact default_lost. Qed.
Print Assumptions C43_refuted.

(** C43: a task that is to start a subflow that cannot be found fails, with the error that says so, and starts none. *)
Theorem C43_subflow_missing : forall E d0 uri0 s t x r s1 uri,
  e_icpt E = None -> mappers_ok E -> e_conc E = false -> settings_ok E ->
  running E d0 uri0 s -> evaluates E s t x r s1 -> ti_status x <> TWaiting -> t_type (ti_task x) = TBasic ->
  starts_subflow E x uri DNil ->
  r = inl (EOther ("unable to resolve subflow: " +:+ uri)) /\ s_sfctr s1 = s_sfctr s.
Proof. intros E d0 uri0 s t x r s1 uri A B C D. exact (subflow_missing E d0 uri0 A B C D s t x r s1 uri). Qed.
Print Assumptions C43_subflow_missing.

Example C43_subflow_missing_example :
  let E := env_lost in
  let s := started E in_flow "u" ∅ in
  e_icpt E = None /\ mappers_ok E /\ e_conc E = false /\ settings_ok E /\ running E in_flow "u" s /\
  (exists t x r s1, evaluates E s t x r s1 /\ ti_status x <> TWaiting /\ t_type (ti_task x) = TBasic /\
     starts_subflow E x "g" DNil /\ r = inl (EOther "unable to resolve subflow: g")).
Proof.
  cbv zeta. set (E := env_lost). set (s := started _ _ _ _).
  split; [done|]. split; [apply env_in_mappers|]. split; [done|]. split; [apply env_in_settings|]. split; [apply (started_running _ _ _ _ 0)|].
  destruct (eval_check E s (fun t x r s1 => bool_decide (r = inl (EOther "unable to resolve subflow: g") /\ ti_status x <> TWaiting /\ t_type (ti_task x) = TBasic /\
    t_id (ti_task x) = "a"))) as (t & x & r & s1 & Ev & H); [ev|].
  apply bool_decide_eq_true in H as (H0 & H1 & H2 & H3). exists t, x, r, s1. split; [assumption|]. do 2 (split; [assumption|]). split; [|assumption].
  split; [done|]. intros n v _ Hv. change (act_lost n v = subflow_eval DNil "g" v). unfold act_lost. by rewrite bool_decide_eq_true_2 by congruence.
Qed.

(** C44: in the main flow, at any time, a reference "$flow.n" stands for the input [n] the flow was started with; if it
    was started without, for the default that the flow declares; if it declares none, for nothing. For flows whose
    activities do not assign the attribute themselves. *)
Theorem C44_inputs : forall E pv d uri ins s0 s v n,
  input_name n -> ~ scoped E n -> begins E d uri ins s0 -> later E s0 s -> sees s 0 v ->
  resolve pv v (RFlow n) = match ins !! n with Some w => Some w | None => declared d n end.
Proof. intros E pv. exact (inputs_resolve pv E). Qed.
Print Assumptions C44_inputs.

(** One of two inputs given; seen by the last task, when the subflow has ended. *)
Example C44_inputs_example :
  let E := env_in in
  let ins := {["p" := VInt 5]} in
  let s0 := started E in_flow "u" ins in
  let s := after E 6 s0 in
  input_name "p" /\ input_name "q" /\ (forall n, ~ scoped E n) /\ begins E in_flow "u" ins s0 /\ later E s0 s /\
  evaluations s = [(0, "a"); (0, "c"); (1, "x"); (1, "y"); (0, "b")]%nat /\
  exists t, sees s 0 (view_of s t) /\ resolve (fun _ _ => None) (view_of s t) (RFlow "p") = Some (VInt 5) /\
    resolve (fun _ _ => None) (view_of s t) (RFlow "q") = Some (VInt 4) /\ resolve (fun _ _ => None) (view_of s t) (RFlow "z") = None.
Proof.
  cbv zeta. set (E := env_in). set (s0 := started _ _ _ _). set (s := after _ _ _).
  split; [split; [by apply no_dot_ok|done]|]. split; [split; [by apply no_dot_ok|done]|]. split; [apply env_in_unscoped|].
  split; [by left|]. split; [apply after_later; constructor|]. split; [ev|].
  exists 0%nat. split; [apply sees_check; ev|]. split; [ev|]. split; ev.
Qed.

(** C44: in every flow, at any time, the references "$flowctx[FlowName]", "$flowctx[FlowId]", "$flowctx[AppName]" and
    "$flowctx[AppVersion]" stand for the name and the id of this flow and for name and version of the application.
    For names that no flow declares as its input and no activity assigns. *)
Theorem C44_context : forall E pv d uri ins s0 s i v n y tx,
  reserved E d ("_fctx." +:+ n) -> ins !! ("_fctx." +:+ n) = None -> begins E d uri ins s0 -> later E s0 s ->
  s_insts s !! i = Some y -> sees s i v -> context_text E (i_def y) i n = Some tx -> resolve pv v (RContext n) = Some (VStr tx).
Proof. intros E pv. exact (context_resolves pv E). Qed.
Print Assumptions C44_context.

(** The name of the subflow, in the subflow. *)
Example C44_context_example :
  let E := env_in in
  let s0 := started E in_flow "u" ∅ in
  let s := after E 4 s0 in
  reserved E in_flow "_fctx.FlowName" /\ begins E in_flow "u" ∅ s0 /\ later E s0 s /\
  exists y t, s_insts s !! 1%nat = Some y /\ d_name (i_def y) = "g" /\ sees s 1 (view_of s t) /\ context_text E (i_def y) 1 "FlowName" = Some "g" /\
    context_text E in_flow 0 "FlowName" = Some "f".
Proof.
  cbv zeta. set (E := env_in). set (s0 := started _ _ _ _). set (s := after _ _ _).
  split; [|split; [by left|split; [apply after_later; constructor|]]].
  - split; [apply env_in_unscoped|]. split; [by apply env_in_gives|].
    assert (forall d, declared d "_fctx.FlowName" = None -> ~ declares d "_fctx.FlowName") as K.
    { intros d F (md & Hm & [w Hw]). unfold declared in F. rewrite Hm in F. cbn in F. congruence. }
    split; [apply K; ev|]. intros j uri d' H. change ((if String.eqb uri "g" then DOk in_sub else DNil) = DOk d') in H.
    destruct (String.eqb uri "g"); [|done]. injection H as <-. apply K. ev.
  - destruct (some_check (fun y => d_name (i_def y) = "g") (s_insts s !! 1%nat)) as (y & Hy & Hd); [ev|].
    exists y, 3%nat. split; [assumption|]. split; [assumption|]. split; [apply sees_check; ev|]. split; [|ev]. rewrite <- Hd. by unfold context_text.
Qed.

(** C44: a reference "$activity[a].n" stands for output [n] of the last evaluation of task [a] of this flow, if that
    succeeded. Under the conditions of [C24_own_outputs_partial].
    Missing: outputs written when a waiting task is resumed; interceptors; names with dots. *)
Theorem C44_outputs_partial : forall E pv d uri s t x r s1 x1 ac ns n w s' v,
  e_icpt E = None -> dotless_flow d -> dotless_env E -> ~ scoped E (out_key (t_id (ti_task x)) n) ->
  running E d uri s -> evaluates E s t x r s1 -> ti_status x <> TWaiting -> succeeded (ti_task x) r ->
  (forall lc, t_loop (ti_task x) = Some lc -> lc_acc lc = true -> lc_accapply lc = true) ->
  t_act (ti_task x) = Some ac -> ac_outs ac = Some ns -> n ∈ ns -> n <> "" ->
  s_tis s1 !! t = Some x1 -> ti_out x1 !! n = Some w ->
  meanwhile E (ti_inst x) (t_id (ti_task x)) (do_step E s).2 s' -> sees s' (ti_inst x) v ->
  resolve pv v (RActivity (t_id (ti_task x)) n) = Some w.
Proof. intros E pv. exact (output_resolves pv E). Qed.
Print Assumptions C44_outputs_partial.

(** The output of the first task of two, seen by the last one of the flow. *)
Example C44_outputs_example :
  let E := env1 act_ok in
  let s := started E two_lines "u" ∅ in
  let s' := after E 3 (do_step E s).2 in
  dotless_flow two_lines /\ dotless_env E /\ ~ scoped E (out_key "a" "o") /\
  (exists t x r s1 x1 ac, evaluates E s t x r s1 /\ ti_inst x = 0%nat /\ t_id (ti_task x) = "a" /\ ti_status x <> TWaiting /\
     succeeded (ti_task x) r /\ t_loop (ti_task x) = None /\ t_act (ti_task x) = Some ac /\ ac_outs ac = Some ["o"] /\
     s_tis s1 !! t = Some x1 /\ ti_out x1 !! "o" = Some (VStr "a")) /\
  meanwhile E 0 "a" (do_step E s).2 s' /\
  exists t, sees s' 0 (view_of s' t) /\ resolve (fun _ _ => None) (view_of s' t) (RActivity "a" "o") = Some (VStr "a").
Proof.
  cbv zeta. destruct C24_own_outputs_example as (H1 & H2 & H3 & H4 & H5 & _). split_and!; [assumption..|].
  exists 3%nat. split; [apply sees_check; ev|ev].
Qed.

(** C44: when the error handler of the main flow has taken over, the references "$error" and "$error[a]", for the task [a]
    that failed, stand for an object that describes the error. *)
Theorem C44_error : forall E pv d uri s t x e s1 h v,
  running E d uri s -> built d -> cov_ok E -> settings_ok E -> e_conc E = false -> d_eh d = Some h ->
  (forall tk, tk ∈ start_tasks (eh_tasks h) -> t_act tk <> None) ->
  evaluates E s t x (inl e) s1 -> ti_inst x = 0%nat -> no_error_link (ti_task x) ->
  (forall y, s_insts s !! 0%nat = Some y -> i_handling y = false) ->
  sees (do_step E s).2 0 v ->
  describes (ti_task x) e (resolve pv v (RError "" "")) /\ describes (ti_task x) e (resolve pv v (RError (t_id (ti_task x)) "")).
Proof. intros E pv. exact (error_resolves pv E). Qed.
Print Assumptions C44_error.

(** Seen by the first task of the handler. *)
Example C44_error_example :
  let E := env1 (act_fail ["b"]) in
  let s := after E 1 (started E handled_flow "u" ∅) in
  let s' := (do_step E s).2 in
  running E handled_flow "u" s /\ built handled_flow /\ cov_ok E /\ settings_ok E /\ e_conc E = false /\
  (exists h, d_eh handled_flow = Some h /\ t_id <$> start_tasks (eh_tasks h) = ["h1"; "h2"] /\
     forall tk, tk ∈ start_tasks (eh_tasks h) -> t_act tk <> None) /\
  (exists t x s1, evaluates E s t x (inl err_b) s1 /\ ti_inst x = 0%nat /\ no_error_link (ti_task x)) /\
  (forall y, s_insts s !! 0%nat = Some y -> i_handling y = false) /\
  exists t, sees s' 0 (view_of s' t) /\ v_task (view_of s' t) = "h1".
Proof.
  cbv zeta. destruct C13_example as (H1 & H2 & H3 & H4 & H5 & H6 & (t & x & s1 & H7 & H8 & H9 & _) & H10).
  split; [assumption|]. do 5 (split; [assumption|]). split; [exists t, x, s1; split; [assumption|by split]|]. split; [assumption|].
  exists 3%nat. split; [apply sees_check; ev|ev].
Qed.

(** C44: "$error[a]" stays what it is while other tasks are evaluated, also when they fail or when the error handler takes
    over; if no activity assigns the attribute itself. *)
Theorem C44_error_kept : forall E pv d uri s0 s i a n y v0 v,
  running E d uri s0 -> s_insts s0 !! i = Some y -> i_status y <> FNotStarted -> a <> "" -> ~ scoped E ("_E." +:+ a) ->
  meanwhile E i a s0 s -> sees s0 i v0 -> sees s i v -> resolve pv v (RError a n) = resolve pv v0 (RError a n).
Proof. intros E pv. exact (error_reference_stays pv E). Qed.
Print Assumptions C44_error_kept.

(** "b" has failed; "h1" of the handler is evaluated; "h2" sees the error of "b". *)
Example C44_error_kept_example :
  let E := env1 (act_fail ["b"]) in
  let s0 := after E 2 (started E handled_flow "u" ∅) in
  let s := after E 3 (started E handled_flow "u" ∅) in
  running E handled_flow "u" s0 /\ main_status s0 = Some FActive /\ ~ scoped E ("_E." +:+ "b") /\ meanwhile E 0 "b" s0 s /\
  sees s0 0 (view_of s0 3) /\ sees s 0 (view_of s 4) /\ v_task (view_of s 4) = "h2" /\
  resolve (fun _ _ => None) (view_of s 4) (RError "b" "") = Some (error_obj "b" err_b).
Proof.
  cbv zeta. set (E := env1 _). set (s0 := after _ 2 _). set (s := after _ 3 _).
  split; [apply (started_running _ _ _ _ 2)|]. split; [ev|]. split.
  { intros (j & v & [H|(a & H & _)]); [|done]. cbn in H. unfold act_fail in H. case_match; done. }
  split.
  { change s with (do_step E s0).2. apply mw_step; [apply mw_here|]. intros w t q x Hq Hx. right.
    assert (H : match s_queue s0 with (_, t) :: _ => match s_tis s0 !! t with Some x => negb (String.eqb (t_id (ti_task x)) "b") | None => false end | [] => false end = true) by ev.
    rewrite Hq, Hx in H. intros He. by rewrite He in H. }
  split; [apply sees_check; ev|]. split; [apply sees_check; ev|]. split; ev.
Qed.

(** C44: while a flow handles an error, "$error" stays what it is until the flow fails, also when further tasks fail; if no
    activity assigns the attribute itself and the expressions of links can be evaluated. *)
Theorem C44_error_first : forall E pv d uri s0 s i n y v0 v,
  (forall n v l e, e_link E n v l <> XErr e) -> ~ scoped E "_E" ->
  running E d uri s0 -> s_insts s0 !! i = Some y -> i_status y <> FNotStarted -> i_handling y = true ->
  later E s0 s -> EvFlowStatus i FFailed ∉ happened s0 s ->
  sees s0 i v0 -> sees s i v -> resolve pv v (RError "" n) = resolve pv v0 (RError "" n).
Proof. intros E pv. exact (error_being_handled pv E). Qed.
Print Assumptions C44_error_first.

(** A handler with a task whose failure is handled (test data). *)
Definition again_flow : defn := flow_of "f" [tr "a"; tr "b"] [ldep "a" "b"] (Some ([tr "h1"; tr "h2"], [lerr "h1" "h2"])) None.
(** "b" has failed; in the handler "h1" fails, which a link handles; "h2" sees the error of "b". *)
Example C44_error_first_example :
  let E := env1 (act_fail ["b"; "h1"]) in
  let s0 := after E 2 (started E again_flow "u" ∅) in
  let s := after E 3 (started E again_flow "u" ∅) in
  (forall n v l e, e_link E n v l <> XErr e) /\ ~ scoped E "_E" /\ running E again_flow "u" s0 /\ main_status s0 = Some FActive /\
  (exists y, s_insts s0 !! 0%nat = Some y /\ i_handling y = true) /\ later E s0 s /\ EvFlowStatus 0 FFailed ∉ happened s0 s /\
  EvTaskUpd 0 "h1" TFailed ∈ happened s0 s /\
  sees s0 0 (view_of s0 2) /\ sees s 0 (view_of s 3) /\ v_task (view_of s 3) = "h2" /\
  resolve (fun _ _ => None) (view_of s 3) (RError "" "") = Some (error_obj "b" err_b).
Proof.
  cbv zeta. set (E := env1 _). set (s0 := after _ 2 _). set (s := after _ 3 _).
  split; [done|]. split.
  { intros (j & v & [H|(a & H & _)]); [|done]. cbn in H. unfold act_fail in H. case_match; done. }
  split; [apply (started_running _ _ _ _ 2)|]. split; [ev|]. split.
  { assert (H : i_handling <$> s_insts s0 !! 0%nat = Some true) by ev. destruct (s_insts s0 !! 0%nat) as [y|]; [|done]. injection H as H. by exists y. }
  split; [change s with (do_step E s0).2; apply lt_step, lt_here|].
  split.
  { assert (H : forallb (fun e => match e with EvFlowStatus 0 z => negb (z =? FFailed) | _ => true end) (happened s0 s) = true) by ev.
    intros He%elem_of_list_In. rewrite forallb_forall in H. specialize (H _ He). cbn in H. discriminate H. }
  split.
  { assert (H : existsb (fun e => match e with EvTaskUpd 0 id z => String.eqb id "h1" && (z =? TFailed) | _ => false end) (happened s0 s) = true) by ev.
    apply existsb_exists in H as (e & He%elem_of_list_In & H). destruct e as [| | | | | | | | [|] id z | | | | | | | | | | | | | | | | | | | | | | | | |]; try discriminate H.
    apply andb_true_iff in H as [->%String.eqb_eq ->%Z.eqb_eq]. exact He. }
  split; [apply sees_check; ev|]. split; [apply sees_check; ev|]. split; ev.
Qed.
