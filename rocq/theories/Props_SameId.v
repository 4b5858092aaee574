(** Tasks of the error handler of a subflow with ids of its other tasks. *)
From Verif Require Import Examples21.
Local Open Scope Z_scope.

(** C22, if a task of its error handler has the id of another task of the flow: false. "x" fails once and starts the error handler, in which "x"
    leads to "y". Run by itself, the flow evaluates "x" and "y" of the handler. As a subflow it evaluates the first "x" again, which leads nowhere, and completes:
    the task instances that are cleared are those of the main flow. ([C22_refuted] shows the other half: the main flow loses its task instances.) *)
Theorem C22_same_id_refuted : exists E sub d uri ins h, built sub /\ built d /\ SpecSub.recordable E /\ e_conc E = false /\ (forall n u, e_def E n u = DOk sub) /\
  d_eh sub = Some h /\ t_id <$> eh_tasks h = ["x"; "y"] /\ (fun l => (l_type l, l_from l, l_to l)) <$> eh_links h = [(LtDependency, "x", "y")] /\
  let o i s := (fun o => bool_decide (o = None)) <$> outcomes i "x" (trace s) in
  let s := (run_flow E ro0 sub uri ins).2 in let s' := (run_flow E ro0 d uri ins).2 in
  evaluations s = [(0, "x"); (0, "x"); (0, "y")]%nat /\ o 0%nat s = [false; true] /\
  evaluations s' = [(0, "a"); (1, "x"); (1, "x"); (0, "b")]%nat /\ o 1%nat s' = [false; true] /\ main_status s' = Some FCompleted.
Proof. exact same_id_shared. Qed.
Print Assumptions C22_same_id_refuted.
