(** What still runs when the error handler has taken over. *)
From Verif Require Import Examples22.
Local Open Scope Z_scope.

(** C55, if no task of the flow other than those of the error handler is queued, known, or waits for a subflow: from then on, whatever happens, only tasks of the
    error handler are evaluated in the flow. *)
Theorem C55_handler_only_partial : forall E d uri s y h n,
  running E d uri s -> built d -> d_eh d = Some h -> s_insts s !! 0%nat = Some y -> i_handling y = true ->
  (forall w t x, (w, t) ∈ s_queue s -> s_tis s !! t = Some x -> ti_inst x = 0%nat -> ti_task x ∈ eh_tasks h) ->
  (forall id t x, i_tasks y !! id = Some t -> s_tis s !! t = Some x -> ti_task x ∈ eh_tasks h) ->
  (forall i z t x, s_insts s !! i = Some z -> i_host z = Some t -> s_tis s !! t = Some x -> ti_inst x = 0%nat -> ti_task x ∈ eh_tasks h) ->
  exists l, evaluations (after E n s) = evaluations s ++ l /\ forall id, (0%nat, id) ∈ l -> id ∈ t_id <$> eh_tasks h.
Proof. exact handler_only. Qed.
Print Assumptions C55_handler_only_partial.

(** "b" has failed, the handler is about to run "h1" and "h3". *)
Example C55_handler_only_example : exists E d uri s y h, running E d uri s /\ built d /\ d_eh d = Some h /\ s_insts s !! 0%nat = Some y /\ i_handling y = true /\
  (forall w t x, (w, t) ∈ s_queue s -> s_tis s !! t = Some x -> ti_inst x = 0%nat -> ti_task x ∈ eh_tasks h) /\
  (forall id t x, i_tasks y !! id = Some t -> s_tis s !! t = Some x -> ti_task x ∈ eh_tasks h) /\
  (forall i z t x, s_insts s !! i = Some z -> i_host z = Some t -> s_tis s !! t = Some x -> ti_inst x = 0%nat -> ti_task x ∈ eh_tasks h) /\
  evaluations s = [(0, "a"); (0, "b")]%nat /\ evaluations (after E 5 s) = [(0, "a"); (0, "b"); (0, "h1"); (0, "h3")]%nat.
Proof. exact only_meets. Qed.

(** C55: that is the state in which an unhandled error leaves a flow when nothing else is queued and no subflow was started. *)
Theorem C55_taken_over_partial : forall E d uri s t x e s1 h,
  running E d uri s -> built d -> NoDup (t_id <$> all_tasks d) -> cov_ok E -> settings_ok E -> e_conc E = false -> d_eh d = Some h ->
  (forall tk, tk ∈ start_tasks (eh_tasks h) -> t_act tk <> None) ->
  evaluates E s t x (inl e) s1 -> ti_inst x = 0%nat -> no_error_link (ti_task x) ->
  (forall y, s_insts s !! 0%nat = Some y -> i_handling y = false) ->
  pending s1 = [] -> (forall i z, s_insts (do_step E s).2 !! i = Some z -> i_host z = None) ->
  forall n, exists l, evaluations (after E n (do_step E s).2) = evaluations (do_step E s).2 ++ l /\ forall id, (0%nat, id) ∈ l -> id ∈ t_id <$> eh_tasks h.
Proof. exact taken_over. Qed.
Print Assumptions C55_taken_over_partial.

Example C55_taken_over_example : let E := env1 (act_fail ["b"]) in let s := after E 1 (started E only_flow "u" ∅) in
  running E only_flow "u" s /\ built only_flow /\ NoDup (t_id <$> all_tasks only_flow) /\ cov_ok E /\ settings_ok E /\ e_conc E = false /\
  (exists h, d_eh only_flow = Some h /\ t_id <$> eh_tasks h = ["h1"; "h3"] /\ forall tk, tk ∈ start_tasks (eh_tasks h) -> t_act tk <> None) /\
  (exists t x s1, evaluates E s t x (inl only_err) s1 /\ ti_inst x = 0%nat /\ no_error_link (ti_task x) /\ pending s1 = []) /\
  (forall y, s_insts s !! 0%nat = Some y -> i_handling y = false) /\
  (forall i z, s_insts (do_step E s).2 !! i = Some z -> i_host z = None) /\
  evaluations (do_step E s).2 = [(0, "a"); (0, "b")]%nat /\ evaluations (after E 5 (do_step E s).2) = [(0, "a"); (0, "b"); (0, "h1"); (0, "h3")]%nat.
Proof. exact only_holds. Qed.

(** C55 in general: false. "c" is queued when "b" fails. The error handler starts with "h", but "c" is evaluated, and after it "d" and "e". *)
Theorem C55_refuted : exists E d uri ins h, built d /\ sync_env false E /\ e_conc E = false /\ d_eh d = Some h /\ t_id <$> eh_tasks h = ["h"] /\
  outcomes 0 "b" (trace (run_flow E ro0 d uri ins).2) <> [None] /\
  evaluations (run_flow E ro0 d uri ins).2 = [(0, "a"); (0, "b"); (0, "c"); (0, "h"); (0, "d"); (0, "e")]%nat /\ main_status (run_flow E ro0 d uri ins).2 = Some FCompleted.
Proof. exact others_go_on. Qed.
Print Assumptions C55_refuted.

(** C55: "b" fails while the subflow of "s" runs. The error handler ends, the flow is completed and its result is delivered while the subflow is active and has
    its next task queued, which is never run. *)
Theorem C55_subflow_refuted : exists E sub d uri ins h, built sub /\ built d /\ SpecSub.recordable E /\ e_conc E = false /\ (forall n u, e_def E n u = DOk sub) /\
  d_eh d = Some h /\ t_id <$> eh_tasks h = ["h"] /\
  let s := (run_flow E ro0 d uri ins).2 in
  evaluations s = [(0, "a"); (0, "s"); (0, "b"); (1, "x"); (0, "h")]%nat /\ main_status s = Some FCompleted /\ delivered s = [(None, None)] /\
  (fun p => (p.1.2, p.2)) <$> pending s = [(1%nat, "y")] /\ i_status <$> s_insts s !! 1%nat = Some FActive.
Proof. exact subflow_left. Qed.
Print Assumptions C55_subflow_refuted.
