(** Test data and checks for Props_SameId.v. Not part of the model; the values have no Go counterpart. *)
From Verif Require Export Rounds Examples2 Examples14 Findings3 SpecSub.
Local Open Scope Z_scope.

(** A flow whose task "x" has no successor; in its error handler "x" leads to "y" (test data). *)
Definition same_id : defn := flow_of "f" [tr "x"] [] (Some ([tr "x"; tr "y"], [ldep "x" "y"])) None.
(** The flow as a subflow of "a" (test data). *)
Definition same_host : defn := flow_of "g" [tr "a"; tr "b"] [ldep "a" "b"] None None.
(** "a" starts the subflow, the first call of "x" fails (test data). *)
Definition env_same : env := rec_env RMOff (set_e_def (fun _ _ => DOk same_id)
  (env1 (fun n v => if String.eqb (v_task v) "x" && (n <=? if v_inst v =? 0 then 2 else 4)%nat then AEnd (AErr (EAct "failed" "42" VNil false "")) else sub_act ["a"] n v))).
Lemma same_id_shared : exists E sub d uri ins h, built sub /\ built d /\ SpecSub.recordable E /\ e_conc E = false /\ (forall n u, e_def E n u = DOk sub) /\
  d_eh sub = Some h /\ t_id <$> eh_tasks h = ["x"; "y"] /\ (fun l => (l_type l, l_from l, l_to l)) <$> eh_links h = [(LtDependency, "x", "y")] /\
  let o i s := (fun o => bool_decide (o = None)) <$> outcomes i "x" (trace s) in
  let s := (run_flow E ro0 sub uri ins).2 in let s' := (run_flow E ro0 d uri ins).2 in
  evaluations s = [(0, "x"); (0, "x"); (0, "y")]%nat /\ o 0%nat s = [false; true] /\
  evaluations s' = [(0, "a"); (1, "x"); (1, "x"); (0, "b")]%nat /\ o 1%nat s' = [false; true] /\ main_status s' = Some FCompleted.
Proof.
  destruct (d_eh same_id) as [h|] eqn:Hh; [|by vm_compute in Hh].
  exists env_same, same_id, same_host, "u", ∅, h. split; [apply flow_of_built; ev|]. split; [apply flow_of_built; ev|].
  split; [exists RMOff; split; [done|by right]|]. split; [done|]. split; [done|]. split; [done|].
  vm_compute in Hh. injection Hh as <-. split; [done|]. split; [done|]. cbv zeta. split_and!; ev.
Qed.
