(** Properties of resumed instances. *)
From Verif Require Import Blind Examples11 Examples.
Local Open Scope Z_scope.

(** C48: a run that was stopped by the step limit and is then resumed (without new inputs) goes on as
    if it had not been stopped: outcome, final state, tasks taken, activities evaluated and results
    are those of one run with as many steps as both together; only the message about the limit and
    the instance id asked for by the second caller come in addition.
    Missing: resuming with inputs, see [C48_refuted], concurrent task execution, and with a state recorder (which is given the
    flow's return data and fixes them too early, see [C31_refuted]). *)
Theorem C48_partial : forall E ro ro' d uri ins,
  e_ext E = false -> ro_event ro' = "" -> first_count ro <= ro_max ro -> first_count ro' <= ro_max ro' ->
  let stopped := (run_flow E ro d uri ins).2 in
  (run_flow E ro d uri ins).1 = Ok tt -> main_status stopped = Some FActive -> s_queue stopped <> [] ->
  let again := run_resume E ro' ∅ stopped in
  let once := run_flow E (ro_both ro ro') d uri ins in
  again.1 = once.1 /\ set_s_log [] again.2 = set_s_log [] once.2 /\
  executed again.2 = executed once.2 /\ evaluations again.2 = evaluations once.2 /\
  exists before later,
    delivered stopped = before ++ [(None, Some (limit_err E ro))] /\
    delivered once.2 = before ++ later /\
    delivered again.2 = delivered stopped ++ (if ro_retid ro' then [(Some {[ "id" := VStr (e_id E) ]}, None)] else []) ++ later.
Proof. exact resumed_run. Qed.
Print Assumptions C48_partial.

(** A flow of four tasks, stopped after two steps. *)
Example C48_example :
  let ro := mk_ro 0 false false "" 2 in let ro' := mk_ro 0 true false "" 50 in
  let E := env1 act_ok in let r := run_flow E ro two_lines "u" ∅ in let again := run_resume E ro' ∅ r.2 in
  r.1 = Ok tt /\ main_status r.2 = Some FActive /\ s_queue r.2 <> [] /\
  again.1 = Ok tt /\ main_status again.2 = Some FCompleted /\
  delivered again.2 = [(None, Some (limit_err E ro)); (Some {[ "id" := VStr "main" ]}, None); (None, None)] /\
  executed again.2 = executed (run_flow E ro0 two_lines "u" ∅).2.
Proof. cbv zeta. split_and!; try ev. by vm_compute. Qed.

(** C48: with concurrent task execution, a resumed run that brings new inputs never goes on:
    UpdateAttrs takes the lock of the flow and then calls SetValue, which waits for it. The flow is
    active, has work and no goroutine is running. *)
Theorem C48_refuted : exists E d uri ins chs ro inputs,
  built d /\ e_conc E = true /\ e_ext E = false /\ ro_event ro = "" /\
  let c := conc_run E chs (conc_start E d uri ins) in
  Forall (fun th => th = ThEnd) (c_threads c) /\ main_status (c_st c) = Some FActive /\ s_queue (c_st c) <> [] /\
  (run_resume E ro inputs (c_st c)).1 = Blocked.
Proof. exact resume_blocks. Qed.
Print Assumptions C48_refuted.
