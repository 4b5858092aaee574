(** Property theorems: flows without conditional links. Contains nothing else. *)
From Verif Require Import Uncond Examples6.
Local Open Scope Z_scope.

(** C33: a flow all of whose links are unconditional (dependency or label links; also in its error handler and in the flows its activities may start as
    subflows) never blocks: in every interleaving, whatever its activities do, no goroutine waits for a lock it holds itself, and no task is skipped. *)
Theorem C33_unconditional_partial : forall E, (forall n uri d, e_def E n uri = DOk d -> plain_flow d) -> forall d uri ins chs, plain_flow d ->
  let c := conc_run E chs (conc_start E d uri ins) in
  ThStuck ∉ c_threads c /\ forall i id, EvTaskUpd i id TSkipped ∉ trace (c_st c).
Proof. exact plain_free. Qed.
Print Assumptions C33_unconditional_partial.

(** The flow with a join is such a flow; the one that blocks in C33_refuted has a link with an expression. *)
Example C33_unconditional_partial_example :
  (forall n uri d, e_def env_conc n uri = DOk d -> plain_flow d) /\ plain_flow join_flow /\ ~ plain_flow skip_flow /\
  main_status (c_st (conc_run env_conc early_enter (conc_start env_conc join_flow "u" ∅))) = Some FCompleted.
Proof.
  split; [done|]. split; [|split; [|ev]].
  - intros tk l Hk Hl. vm_compute in Hk. repeat (apply elem_of_cons in Hk as [-> | Hk]; [vm_compute in Hl; repeat (apply elem_of_cons in Hl as [-> | Hl]; [by left|]); by apply elem_of_nil in Hl|]).
    by apply elem_of_nil in Hk.
  - intros H. assert (Hx : exists tk l, tk ∈ all_tasks skip_flow /\ l ∈ t_to tk /\ l_type l = LtExpression).
    { vm_compute. eexists _, _. split; [left|]. split; [left|]. done. }
    destruct Hx as (tk & l & H1 & H2 & H3). destruct (H tk l H1 H2); congruence.
Qed.
