(** Test data for Props_Resume.v: resuming with new inputs and concurrent task execution. Not part of
    the model; the values have no Go counterpart. *)
From Verif Require Export Blind Examples6 Examples.
Local Open Scope Z_scope.

Lemma resume_blocks : exists E d uri ins chs ro inputs,
  built d /\ e_conc E = true /\ e_ext E = false /\ ro_event ro = "" /\
  let c := conc_run E chs (conc_start E d uri ins) in
  Forall (fun th => th = ThEnd) (c_threads c) /\ main_status (c_st c) = Some FActive /\ s_queue (c_st c) <> [] /\
  (run_resume E ro inputs (c_st c)).1 = Blocked.
Proof.
  exists env_conc, join_flow, "u", ∅, ([Loop] ++ all4 0), (mk_ro 0 false false "" 50), {[ "x" := VInt 1 ]}.
  split_and!; try ev; try (by vm_compute); [apply flow_of_built; ev|]. cbv zeta.
  split; [|split; [ev|split; [ne|ev]]]. set (l := c_threads _). assert (l = [ThEnd]) as -> by ev. by repeat constructor.
Qed.
