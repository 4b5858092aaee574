(** Whole runs of acyclic flows come to an end. *)
From Verif Require Import Silent Examples3 Examples10.
Local Open Scope Z_scope.

(** C03, also when activities without error link fail and the flow has no error handler: within as many steps as there are tasks the flow is
    completed or failed; also in the loop of the action.
    Missing: flows with subflows, shortcuts, or failures that start the error handler. *)
Theorem C03_ends_partial : forall E d uri, simple_flow d -> orderly E -> no_takeover E d -> sync_env false E -> d_tasks d <> [] ->
  forall s, running E d uri s ->
  (exists n, (n <= length (d_tasks d))%nat /\ (main_status (after E n s) = Some FCompleted \/ main_status (after E n s) = Some FFailed)) /\
  (exists n, (n <= length (d_tasks d))%nat /\ (main_status (laps E n s) = Some FCompleted \/ main_status (laps E n s) = Some FFailed)).
Proof. exact flow_closes. Qed.
Print Assumptions C03_ends_partial.

(** C03: the run of such a flow by the action, given enough steps, returns normally with the flow completed or failed; completed if every activity
    that can fail has an error link. *)
Theorem C03_run_ends_partial : forall E d uri, simple_flow d -> orderly E -> no_takeover E d -> sync_env false E -> d_tasks d <> [] ->
  forall ro ins, NoDup (t_id <$> all_tasks d) -> asserts_calm E -> SpecSub.recordable E ->
  Z.of_nat (length (d_tasks d)) < ro_max ro - first_count ro ->
  (run_flow E ro d uri ins).1 = Ok tt /\
  (main_status (run_flow E ro d uri ins).2 = Some FCompleted \/ main_status (run_flow E ro d uri ins).2 = Some FFailed) /\
  (failures_handled E d -> main_status (run_flow E ro d uri ins).2 = Some FCompleted).
Proof. exact flow_run_closes. Qed.
Print Assumptions C03_run_ends_partial.

(** "b" fails without an error link: the flow fails. *)
Example C03_ends_example :
  let E := env1 (act_fail ["b"]) in
  simple_flow two_lines /\ orderly E /\ no_takeover E two_lines /\ sync_env false E /\ d_tasks two_lines <> [] /\
  running E two_lines "u" (started E two_lines "u" ∅) /\ NoDup (t_id <$> all_tasks two_lines) /\ asserts_calm E /\ SpecSub.recordable E /\
  Z.of_nat (length (d_tasks two_lines)) < ro_max ro0 - first_count ro0 /\
  main_status (run_flow E ro0 two_lines "u" ∅).2 = Some FFailed /\
  main_status (run_flow (env1 act_ok) ro0 two_lines "u" ∅).2 = Some FCompleted.
Proof.
  cbv zeta. split; [split_and!; [side depth|side depth|side depth|apply (shortcut_check_ok _ (depth false)); ev]|]. split; [apply env1_orderly|]. split; [left; ev|]. split; [intros ??; apply act_fail_sync|].
  split; [vm_compute; discriminate|]. split; [constructor|]. split; [apply (bool_decide_unpack _); ev|]. split; [done|].
  split; [exists RMOff; split; [done|by right]|]. split_and!; ev.
Qed.

(** C12: a flow with an error handler fails only while its handler is running, and the only errors it ever keeps are those an activity passed to
    Return: neither the error that started the handler nor the one that made it fail. *)
Theorem C12_handler : forall E d uri, d_eh d <> None -> forall s y, running E d uri s -> s_insts s !! 0%nat = Some y ->
  (i_status y = FFailed -> i_handling y = true) /\ (forall e, i_rerr y = Some e -> exists dt, EvReturn 0 dt (Some e) ∈ trace s).
Proof. exact fails_handling. Qed.
Print Assumptions C12_handler.

(** C12: so whenever the run of such a flow ends failed with steps left, the error delivered is nil unless an activity returned one. *)
Theorem C12_handler_run : forall E d uri, d_eh d <> None -> forall ro ins, (run_flow E ro d uri ins).1 = Ok tt ->
  main_status (run_flow E ro d uri ins).2 = Some FFailed -> Z.of_nat (s_step (run_flow E ro d uri ins).2) < ro_max ro - first_count ro ->
  exists er, last (delivered (run_flow E ro d uri ins).2) = Some (None, er) /\
    forall e, er = Some e -> exists n dt, EvReturn 0 dt (Some e) ∈ trace (laps E n (run_begin E ro ins (init_st d uri)).2).
Proof. exact handler_silent. Qed.
Print Assumptions C12_handler_run.

(** The handler fails too: nil. *)
Example C12_handler_example :
  let r := run_flow (env1 (act_fail ["b"; "h"])) ro0 eh_fails "u" ∅ in
  d_eh eh_fails <> None /\ r.1 = Ok tt /\ main_status r.2 = Some FFailed /\ Z.of_nat (s_step r.2) < ro_max ro0 - first_count ro0 /\
  last (delivered r.2) = Some (None, None).
Proof. cbv zeta. split; [vm_compute; discriminate|]. split_and!; ev. Qed.
(** The handler returns an error and fails: that error. *)
(** Fails in "b"; in the handler returns an error and fails (test data). *)
Definition act_return_fail (n : nat) (v : view) : act :=
  if String.eqb (v_task v) "h" then AReturn None (Some (EOther "returned")) (act_fail ["h"] n v) else act_fail ["b"] n v.
Example C12_returned_example :
  let r := run_flow (env1 act_return_fail) ro0 eh_fails "u" ∅ in
  r.1 = Ok tt /\ main_status r.2 = Some FFailed /\ Z.of_nat (s_step r.2) < ro_max ro0 - first_count ro0 /\
  last (delivered r.2) = Some (None, Some (EOther "returned")).
Proof. cbv zeta. split_and!; ev. Qed.
