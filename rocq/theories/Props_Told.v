(** What a listener is told about flows. *)
From Verif Require Import Examples9.
Local Open Scope Z_scope.

(** C45: a listener gets one event for each change of the status of a flow, in the order of the changes, and directly after the
    change; the event reports the new status and values of the flow. Without a listener there are no events. *)
Theorem C45_events : forall E d uri s, visited E d uri s ->
  notices (trace s) = (if e_listener E then changes (trace s) else []) /\
  forall l1 i z ins outs e l2, trace s = l1 ++ EvFlowEvent i z ins outs e :: l2 ->
    exists y, s_insts s !! i = Some y /\ faithful i (i_def y) z ins outs e l1.
Proof. intros E d uri s H. exact (proj2 (proj2 (proj2 (told_visited E d uri s H)))). Qed.
Print Assumptions C45_events.

(** A flow that starts a subflow; both return data. *)
Example C45_events_example :
  let E := set_e_listener true env_out in
  let s := (run_flow E ro0 out_flow "u" ∅).2 in
  visited E out_flow "u" s /\ built out_flow /\ e_listener E = true /\
  changes (trace s) = [(0, FActive); (1, FActive); (1, FCompleted); (0, FCompleted)]%nat /\
  notices (trace s) = changes (trace s).
Proof.
  cbv zeta. set (E := set_e_listener _ _). split; [right; exists ro0, ∅; reflexivity|]. set (s := (run_flow _ _ _ _ _).2).
  split; [apply flow_of_built; ev|]. split; [reflexivity|]. split; ev.
Qed.

(** C45: so it is when tasks are evaluated concurrently, under any schedule. *)
Theorem C45_events_concurrent : forall E d uri ins chs, let s := c_st (conc_run E chs (conc_start E d uri ins)) in
  notices (trace s) = (if e_listener E then changes (trace s) else []) /\
  forall l1 i z ins outs e l2, trace s = l1 ++ EvFlowEvent i z ins outs e :: l2 ->
    exists y, s_insts s !! i = Some y /\ faithful i (i_def y) z ins outs e l1.
Proof. intros E d uri ins chs. exact (proj2 (proj2 (proj2 (told_conc E d uri ins chs)))). Qed.
Print Assumptions C45_events_concurrent.

(** Two tasks are taken from the queue, then evaluated. *)
Example C45_events_concurrent_example :
  let E := set_e_conc true (set_e_listener true (env1 act_ok)) in
  let s := c_st (conc_run E [Loop; Loop; Go 1; Go 0; Go 1; Go 0; Go 1; Go 0]%nat (conc_start E (flow_of "f" [tr "a"; tr "b"] [] None None) "u" ∅)) in
  e_listener E = true /\ changes (trace s) = [(0, FActive); (0, FCompleted)]%nat /\ notices (trace s) = changes (trace s).
Proof. cbv zeta. split; [reflexivity|]. split; ev. Qed.

(** C45: the event about the failure of a flow does not report the error. *)
Theorem C45_error_refuted :
  exists E ro d uri ins e, built d /\ sync_env false E /\ e_listener E = true /\
    let s := (run_flow E ro d uri ins).2 in
    delivered s = [(None, Some e)] /\ statuses 0 s = [FActive; FFailed] /\
    forall ins outs r, EvFlowEvent 0 FFailed ins outs r ∈ trace s -> r = None.
Proof. exact failure_without_error. Qed.
Print Assumptions C45_error_refuted.

(** C45: the event about the completion of a flow does not report what the flow returns. *)
Theorem C45_outputs_refuted :
  exists E ro d uri ins, built d /\ e_listener E = true /\
    let s := (run_flow E ro d uri ins).2 in
    delivered s = [(Some {["r" := VInt 5]}, None)] /\ statuses 0 s = [FActive; FCompleted] /\
    forall ins outs r, EvFlowEvent 0 FCompleted ins outs r ∈ trace s -> outs !! "r" = None.
Proof. exact completion_without_outputs. Qed.
Print Assumptions C45_outputs_refuted.

(** C45: the event about the start of a flow does not report an input that is an output with a default as well. *)
Theorem C45_inputs_refuted :
  exists E ro d uri ins, built d /\ sync_env true E /\ e_listener E = true /\ ins !! "p" = Some (VInt 3) /\
    let s := (run_flow E ro d uri ins).2 in
    statuses 0 s = [FActive; FCompleted] /\
    forall ins outs r, EvFlowEvent 0 FActive ins outs r ∈ trace s -> ins !! "p" = None /\ outs !! "p" = None.
Proof. exact start_without_input. Qed.
Print Assumptions C45_inputs_refuted.
