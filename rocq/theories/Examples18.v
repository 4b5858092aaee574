(** Test data and checks for Props_Outs.v. Not part of the model; the values have no Go counterpart. *)
From Verif Require Export Outs Findings2.
Local Open Scope Z_scope.

(** Outputs "r" and "q" without default and "c" with default 1; "a" sets all but "q", then "b" sets "r" again (test data). *)
Definition outs_flow : defn := flow_of "f" [tr "a"; tr "b"] [ldep "a" "b"] None (Some (mk_md ∅ (Some {[ "r" := VNil; "q" := VNil; "c" := VInt 1 ]}))).
Definition env_outs : env := env1 (fun n v => if String.eqb (v_task v) "a" then AScope "r" (VInt 5) (AScope "c" (VInt 7) (AEnd ADone)) else AScope "r" (VInt 6) (AEnd ADone)).
Lemma default_wins : exists E ro d uri ins, built d /\ sync_env true E /\ e_listener E = false /\ e_ext E = false /\
  let over := (run_flow E ro d uri ins).2 in
  let before := laps E (s_step over) (run_begin E ro ins (init_st d uri)).2 in
  (run_flow E ro d uri ins).1 = Ok tt /\ main_status over = Some FCompleted /\ assigned 0 "c" (trace before) = [VInt 7] /\
  exists r, delivered over = [(Some r, None)] /\ r !! "c" = Some (VInt 1).
Proof.
  exists env_outs, ro0, outs_flow, "u", ∅. split; [apply flow_of_built; ev|]. split.
  { intros n v. cbn. destruct (String.eqb _ _); repeat constructor. }
  split; [done|]. split; [done|]. cbv zeta. split; [ev|]. split; [ev|]. split; [ev|]. exists {[ "r" := VInt 6; "c" := VInt 1 ]}. split; ev.
Qed.
