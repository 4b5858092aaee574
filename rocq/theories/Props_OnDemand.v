(** Property theorems: flows that come with the request. Contains nothing else. *)
From Verif Require Import OnDemandProofs Examples13.
Local Open Scope Z_scope.

(** C49: an on-demand run ends like the run of the same flow, with the same inputs, by the flow action (without instance recorder): same outcome, status,
    evaluated tasks, queue, statuses of every flow and signals to the handler. Its results are those of that run, but for the id in the first one and one more
    result that it may give when the flow fails with the last step allowed. Missing for the full property: see C49_refuted. *)
Theorem C49_same_partial : forall E mx d ins, (start (od_env E) ins (init_st d "")).1 = Ok tt ->
  let o := on_demand E mx d ins in let r := run_flow (od_env E) (mk_ro 0 (negb (d_reply d)) false "" mx) d "" ins in
  o.1 = r.1 /\ main_status o.2 = main_status r.2 /\ evaluations o.2 = evaluations r.2 /\ executed o.2 = executed r.2 /\
  done_signals o.2 = done_signals r.2 /\ (forall i, statuses i o.2 = statuses i r.2) /\
  exists ids idr later extra, delivered r.2 = idr ++ later /\ delivered o.2 = ids ++ later ++ extra /\
    (if d_reply d then ids = [] /\ idr = [] else ids = [(Some {[ "id" := id_method ]}, None)] /\ idr = [(Some {[ "id" := VStr (e_id E) ]}, None)]) /\
    (extra = [] \/ main_status o.2 = Some FFailed /\
      last later = Some (None, Some (EOther ("flow instance [" +:+ e_id E +:+ "] failed due to max step count reached"))) /\ exists e, extra = [(None, e)]).
Proof. exact od_view. Qed.
Print Assumptions C49_same_partial.

(** C49: if the start of the flow fails, the caller of Run gets that outcome; no task is evaluated, no result is given and the handler is not told the end. *)
Theorem C49_start : forall E mx d ins, (start (od_env E) ins (init_st d "")).1 <> Ok tt ->
  on_demand E mx d ins = start (od_env E) ins (init_st d "") /\ delivered (on_demand E mx d ins).2 = [] /\ done_signals (on_demand E mx d ins).2 = [] /\
  evaluations (on_demand E mx d ins).2 = [].
Proof. exact od_start. Qed.
Print Assumptions C49_start.

(** C49: a flow that fails with the last step allowed gives two results after the id, where the flow action gives one. *)
Theorem C49_refuted : exists E d ins mx e, built d /\ built_env E /\ (start (od_env E) ins (init_st d "")).1 = Ok tt /\
  (on_demand E mx d ins).1 = Ok tt /\ main_status (on_demand E mx d ins).2 = Some FFailed /\
  drop 1 (delivered (on_demand E mx d ins).2) = [(None, Some (limit_err E (mk_ro 0 false false "" mx))); (None, Some e)] /\
  drop 1 (delivered (run_flow (od_env E) (mk_ro 0 true false "" mx) d "" ins).2) = [(None, Some (limit_err E (mk_ro 0 false false "" mx)))].
Proof. exact two_results. Qed.
Print Assumptions C49_refuted.

(** C49: the id in the first result of an on-demand run is not a string (it is that of the instance in a run by the flow action). *)
Theorem C49_id_refuted : exists E d ins mx, built d /\ built_env E /\ main_status (on_demand E mx d ins).2 = Some FCompleted /\
  length (delivered (on_demand E mx d ins).2) = 2%nat /\
  (forall m e t, head (delivered (on_demand E mx d ins).2) = Some (Some m, e) -> m !! "id" <> Some (VStr t)) /\
  (exists m, head (delivered (run_flow (od_env E) (mk_ro 0 true false "" mx) d "" ins).2) = Some (Some m, None) /\ m !! "id" = Some (VStr (e_id E))).
Proof. exact id_unusable. Qed.
Print Assumptions C49_id_refuted.

(** C49: a subflow of an on-demand run fails: the run ends without an error, the main flow is still active, nothing waits in the queue and no result was given
    but the id. The flow action, which has an instance recorder, reports the error. *)
Theorem C49_subflow_refuted : exists E d ins mx e, built d /\ built_env E /\ (on_demand E mx d ins).1 = Ok tt /\
  main_status (on_demand E mx d ins).2 = Some FActive /\ statuses 1 (on_demand E mx d ins).2 = [FActive; FFailed] /\ s_queue (on_demand E mx d ins).2 = [] /\
  length (delivered (on_demand E mx d ins).2) = 1%nat /\
  main_status (run_flow E (mk_ro 0 true false "" mx) d "" ins).2 = Some FFailed /\ drop 1 (delivered (run_flow E (mk_ro 0 true false "" mx) d "" ins).2) = [(None, Some e)].
Proof. exact subflow_failure_lost. Qed.
Print Assumptions C49_subflow_refuted.

(** C49: a panic in a subflow of an on-demand run is not caught, the goroutine of Run panics. The flow action reports an error. *)
Theorem C49_panic_refuted : exists E d ins mx, built d /\ built_env E /\
  (match (on_demand E mx d ins).1 with Panic _ => True | _ => False end) /\ length (delivered (on_demand E mx d ins).2) = 1%nat /\
  (run_flow E (mk_ro 0 true false "" mx) d "" ins).1 = Ok tt /\ main_status (run_flow E (mk_ro 0 true false "" mx) d "" ins).2 = Some FFailed /\
  length (delivered (run_flow E (mk_ro 0 true false "" mx) d "" ins).2) = 2%nat.
Proof. exact subflow_panic_escapes. Qed.
Print Assumptions C49_panic_refuted.

(** C49: the mapper of the inputs fails, the flow runs all the same and completes. *)
Theorem C49_inputs_refuted : exists E b mx r e s, od_action E b mx (Some r) (Some (XErr e)) = OdRan (Ok tt) s /\
  main_status s = Some FCompleted /\ length (evaluations s) = 2%nat.
Proof. exact inputs_error_ignored. Qed.
Print Assumptions C49_inputs_refuted.

(** A flow with a subflow: four tasks are evaluated, the flow completes. A flow whose second start task has settings whose mapper panics. *)
Example C49_same_partial_example :
  (start (od_env (env_expr (flow_of "g" [tr "x"; tr "y"] [ldep "x" "y"] None None) true)) ∅ (init_st call_one "")).1 = Ok tt /\
  length (evaluations (on_demand (env_expr (flow_of "g" [tr "x"; tr "y"] [ldep "x" "y"] None None) true) 10 call_one ∅).2) = 4%nat /\
  main_status (on_demand (env_expr (flow_of "g" [tr "x"; tr "y"] [ldep "x" "y"] None None) true) 10 call_one ∅).2 = Some FCompleted.
Proof. split_and!; ev. Qed.
Example C49_start_example :
  (start (od_env (set_e_setmap (fun _ _ => XPanic "settings") (env0 act_ok))) ∅ (init_st (flow_of "f" [tr "a"; trm "b"] [] None None) "")).1 = Panic "settings".
Proof. ev. Qed.
