(** Properties of whole runs of the action: final statuses, the step limit, delivery of results. *)
From Verif Require Import Run Examples.
Local Open Scope Z_scope.

(** C07: once the main flow is completed or failed, steps only count themselves: tasks, links,
    attributes, statuses, queue and log stay as they are. *)
Theorem C07_final : forall E n s z,
  main_status s = Some z -> FCompleted <= z -> after E n s = set_s_step (n + s_step s) s.
Proof. exact ended_stays. Qed.
Print Assumptions C07_final.

(** A flow that fails while other work is queued. *)
Example C07_final_example :
  let s := after (env1 (act_fail ["a"])) 1 (started (env1 (act_fail ["a"])) two_lines "u" ∅) in
  main_status s = Some FFailed /\ pending s = [(2, 0, "b")]%nat.
Proof. split; ev. Qed.

(** C07: every flow is first active and from then on only completed or failed; its status is the last
    one announced. Missing: that it is not announced completed and then failed, see [C07_refuted]. *)
Theorem C07_statuses_partial : forall E d uri s i y,
  visited E d uri s -> s_insts s !! i = Some y ->
  (statuses i s = [] /\ i_status y = FNotStarted) \/
  (exists r, statuses i s = FActive :: r /\ (forall z, z ∈ r -> z = FCompleted \/ z = FFailed) /\
     last (FActive :: r) = Some (i_status y)).
Proof. exact statuses_known. Qed.
Print Assumptions C07_statuses_partial.

(** The subflow of [caller] and the main flow complete. *)
Example C07_statuses_example :
  let s := after env_sub 9 (started env_sub caller "u" ∅) in
  visited env_sub caller "u" s /\ statuses 0 s = [FActive; FCompleted] /\ statuses 1 s = [FActive; FCompleted].
Proof. split_and!; [apply visited_after|ev|ev]. Qed.

(** C10: a run takes no more work items and makes no more steps than the limit allows, less the
    steps counted from the beginning. *)
Theorem C10_step_limit : forall E ro d uri ins,
  (length (executed (run_flow E ro d uri ins).2) <= Z.to_nat (ro_max ro - first_count ro))%nat /\
  (s_step (run_flow E ro d uri ins).2 <= Z.to_nat (ro_max ro - first_count ro))%nat.
Proof. exact limited. Qed.
Print Assumptions C10_step_limit.

(** C10: a run stopped by the limit before it completed delivers an error last. *)
Theorem C10_limit_reported : forall E ro d uri ins,
  first_count ro <= ro_max ro -> (run_flow E ro d uri ins).1 = Ok tt ->
  Z.of_nat (s_step (run_flow E ro d uri ins).2) = ro_max ro - first_count ro ->
  main_status (run_flow E ro d uri ins).2 <> Some FCompleted ->
  last (delivered (run_flow E ro d uri ins).2) = Some (None, Some (limit_err E ro)).
Proof. exact limit_reported. Qed.
Print Assumptions C10_limit_reported.

(** Three of four steps are allowed, the first of which counts as done. *)
Example C10_example :
  let ro := mk_ro 2 false false "" 3 in
  let r := run_flow (env1 act_ok) ro two_lines "u" ∅ in
  first_count ro = 1 /\ r.1 = Ok tt /\ s_step r.2 = 2%nat /\ executed r.2 = [(1, 0, "a"); (2, 0, "b")]%nat /\
  main_status r.2 = Some FActive.
Proof. cbv zeta. split_and!; ev. Qed.

(** C11: a run that was started tells the handler exactly once that it is over, also if it panics. *)
Theorem C11_done_once : forall E ro d uri ins,
  (run_begin E ro ins (init_st d uri)).1 = Ok tt ->
  ro_detach ro = true \/ (exists m, (run_flow E ro d uri ins).1 = Panic m) \/ (run_flow E ro d uri ins).1 = Ok tt ->
  done_signals (run_flow E ro d uri ins).2 = [tt].
Proof. exact done_once. Qed.
Print Assumptions C11_done_once.

(** C11: the loop makes [n] rounds, none of them after the flow has ended, and ends at the limit, with the flow ended or with nothing to do.
    What is delivered then, after everything delivered before, is one error at the limit, else one
    result with the data and error of a completed flow, else the error of a failed flow (preceded by
    an empty result only if a flow exception assertion is configured), else nothing. *)
Theorem C11_results : forall E ro d uri ins,
  (run_flow E ro d uri ins).1 = Ok tt ->
  exists n y r,
    let begun := (run_begin E ro ins (init_st d uri)).2 in
    let over := (run_flow E ro d uri ins).2 in
    (n <= Z.to_nat (ro_max ro - first_count ro))%nat /\ s_step over = n /\
    (forall k, (k < n)%nat -> exists z, main_status (laps E k begun) = Some z /\ z < FCompleted) /\
    s_insts (laps E n begun) !! 0%nat = Some y /\
    (n = Z.to_nat (ro_max ro - first_count ro) \/ FCompleted <= i_status y \/
     exists m, n = S m /\ (lap E (laps E m begun)).1 = Ok false) /\
    delivered over = delivered (laps E n begun) ++ r /\
    last_results E ro (first_count ro + Z.of_nat n) y r /\
    main_status over = Some (i_status y).
Proof. exact results. Qed.
Print Assumptions C11_results.

(** A flow with a declared output, whose instance id is returned first. *)
Definition with_output : defn := flow_of "f" [tr "a"] [] None (Some (mk_md ∅ (Some {[ "x" := VInt 7 ]}))).
Example C11_example :
  let ro := mk_ro 0 true false "" 100 in
  let r := run_flow (env1 act_ok) ro with_output "u" ∅ in
  (run_begin (env1 act_ok) ro ∅ (init_st with_output "u")).1 = Ok tt /\ r.1 = Ok tt /\
  delivered r.2 = [(Some {[ "id" := VStr "main" ]}, None); (Some {[ "x" := VInt 7 ]}, None)] /\ done_signals r.2 = [tt].
Proof. cbv zeta. split_and!; ev. Qed.

(** C12, for a flow without error handler: if it ends failed, the last thing delivered is an error.
    Missing: flows with an error handler, see [C12_refuted]. *)
Theorem C12_partial : forall E ro d uri ins,
  d_eh d = None -> (run_flow E ro d uri ins).1 = Ok tt ->
  main_status (run_flow E ro d uri ins).2 = Some FFailed ->
  exists e, last (delivered (run_flow E ro d uri ins).2) = Some (None, Some e).
Proof. exact failed_error. Qed.
Print Assumptions C12_partial.

(** An activity fails. *)
Example C12_example :
  let r := run_flow (env1 (act_fail ["b"])) ro0 two_lines "u" ∅ in
  d_eh two_lines = None /\ r.1 = Ok tt /\ main_status r.2 = Some FFailed.
Proof. cbv zeta. split_and!; ev. Qed.
