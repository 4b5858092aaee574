(** The engine does not run forever inside a step. *)
From Verif Require Import Endless.
Local Open Scope Z_scope.

(** C46: a step of the engine ends, if task ids are used once in each flow: neither the nested skipping of tasks nor retrying goes on forever, and no
    lock is waited for unless tasks are evaluated concurrently. *)
Theorem C46_step_ends : forall E d uri s,
  built d -> built_env E -> NoDup (t_id <$> all_tasks d) -> (forall n u d', e_def E n u = DOk d' -> NoDup (t_id <$> all_tasks d')) ->
  running E d uri s ->
  (do_step E s).1 <> Fuel /\ (e_conc E = false -> (do_step E s).1 <> Blocked).
Proof. intros E d uri s Hb HE Nd NE R. exact (conj (step_ends E d uri Hb HE Nd NE s R) (step_free E d uri s R)). Qed.
Print Assumptions C46_step_ends.

(** C46: so does a whole run of a flow, whatever the limit of steps. *)
Theorem C46_run_ends : forall E ro d uri ins,
  built d -> built_env E -> NoDup (t_id <$> all_tasks d) -> (forall n u d', e_def E n u = DOk d' -> NoDup (t_id <$> all_tasks d')) ->
  (run_flow E ro d uri ins).1 <> Fuel /\ (e_conc E = false -> (run_flow E ro d uri ins).1 <> Blocked).
Proof. intros E ro d uri ins Hb HE Nd NE. exact (conj (flow_ends E d uri Hb HE Nd NE ro ins) (flow_free E ro d uri ins)). Qed.
Print Assumptions C46_run_ends.

(** Tasks in a row, all skipped in the step that finishes the first. *)
Definition skip_row : defn := flow_of "f" [tr "a"; tr "b"; tr "c"; tr "d"; tr "e"] [lexpr "a" "b" "false"; ldep "b" "c"; ldep "c" "d"; ldep "d" "e"] None None.
Example C46_skip_example :
  let E := env1 act_ok in let s := started E skip_row "u" ∅ in
  built skip_row /\ built_env E /\ NoDup (t_id <$> all_tasks skip_row) /\ running E skip_row "u" s /\ e_conc E = false /\
  (do_step E s).1 = Ok true /\
  omap (fun e => match e with EvTaskUpd _ id z => if bool_decide (z = TSkipped) then Some id else None | _ => None end) (trace (do_step E s).2)
    = ["b"; "b"; "c"; "c"; "d"; "d"; "e"; "e"].
Proof.
  cbv zeta. split; [apply flow_of_built; ev|]. split; [apply env1_built|]. split; [apply (bool_decide_unpack _); ev|].
  split; [constructor|]. split; [done|]. split; ev.
Qed.
(** A task that fails however often it is retried. *)
Example C46_retry_example :
  let E := env_retry 100 in
  built retry_flow /\ NoDup (t_id <$> all_tasks retry_flow) /\ e_conc E = false /\
  (run_flow E ro0 retry_flow "u" ∅).1 = Ok tt /\ evaluations (run_flow E ro0 retry_flow "u" ∅).2 = [(0, "a"); (0, "a"); (0, "a")]%nat.
Proof. cbv zeta. split; [apply flow_of_built; ev|]. split; [apply (bool_decide_unpack _); ev|]. split; [done|]. split; ev. Qed.
(** A flow with a cycle. *)
Example C46_cycle_example :
  let E := env1 act_ok in
  built cyclic /\ NoDup (t_id <$> all_tasks cyclic) /\ (run_flow E ro0 cyclic "u" ∅).1 = Ok tt.
Proof. cbv zeta. split; [exact cyclic_built|]. split; [apply (bool_decide_unpack _); ev|]. ev. Qed.

(** C46: when the error handler of a subflow uses the ids of tasks of the main section, skipping may go on forever: here the engine enters
    and skips two tasks in turn, whatever bound [n] is put on the nesting. *)
Theorem C46_refuted : exists E d uri s t x s1, built d /\ built_env E /\ e_conc E = false /\ running E d uri s /\
  evaluates E s t x (inr EvalDone) s1 /\ forall n, (handle_task_done E (enter_tasks E n) t s1).1 = Fuel.
Proof. exact endless. Qed.
Print Assumptions C46_refuted.
