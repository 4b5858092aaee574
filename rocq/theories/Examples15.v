(** Test data and checks for Props_Twice.v. Not part of the model; the values have no Go counterpart. *)
From Verif Require Export Examples14 Findings3 SpecSub.
Local Open Scope Z_scope.

(** If the subflow that "a" starts fails, "c" is to be done (test data). *)
Definition sub_or_else : defn := flow_of "f" [tr "a"; tr "c"] [lerr "a" "c"] None None.
(** Both tasks of the subflow fail; "c" waits for somebody to resume it if [w] (test data). *)
Definition both_fail (w : bool) (n : nat) (v : view) : act :=
  if bool_decide (v_task v ∈ ["x"; "y"]) then AEnd (AErr (EOther (v_task v))) else
  if bool_decide (v_task v = "c") && w then AEnd AWait else sub_act ["a"] n v.
Definition env_both_fail (w : bool) : env := rec_env RMOff (set_e_def (fun _ _ => DOk sub_two) (env1 (both_fail w))).
Lemma env_both_fail_built w : built_env (env_both_fail w).
Proof. intros n uri d [= <-]. apply flow_of_built; ev. Qed.
(** "a" is evaluated again after its error link has been followed, and starts the subflow again. *)
Lemma failed_host_again :
  (exists E d uri ins, built d /\ acyclic d /\ built_env E /\ SpecSub.recordable E /\ e_conc E = false /\
    let s := (run_flow E (ro_lim 20) d uri ins).2 in
    (run_flow E (ro_lim 20) d uri ins).1 = Ok tt /\ evaluations s = [(0, "a"); (1, "x"); (1, "y"); (0, "a"); (0, "c")]%nat /\ main_status s = Some FCompleted /\
    delivered s = [(None, None)] /\ statuses 1 s = [FActive; FFailed; FFailed] /\ statuses 2 s = [FActive] /\ length (s_queue s) = 2%nat) /\
  (exists E d uri ins, built d /\ acyclic d /\ built_env E /\ SpecSub.recordable E /\ e_conc E = false /\
    let s := (run_flow E (ro_lim 20) d uri ins).2 in
    evaluations s = [(0, "a"); (1, "x"); (1, "y"); (0, "a"); (0, "c"); (2, "x"); (2, "y"); (0, "a"); (0, "c"); (3, "x"); (3, "y"); (0, "a"); (0, "c");
      (4, "x"); (4, "y"); (0, "a")]%nat /\
    main_status s = Some FActive /\ delivered s = [(None, Some (limit_err E (ro_lim 20)))]).
Proof.
  assert (acyclic sub_or_else) as Ha.
  { exists (fun _ n => if String.eqb n "a" then 0 else 1)%nat. intros l Hl. vm_compute in Hl. apply elem_of_list_singleton in Hl as ->. vm_compute. lia. }
  assert (forall w, SpecSub.recordable (env_both_fail w)) as Hr by (intros w; exists RMOff; split; [done|by right]).
  split.
  - exists (env_both_fail false), sub_or_else, "u", ∅. split; [apply flow_of_built; ev|]. split; [done|]. split; [apply env_both_fail_built|]. split; [done|]. split; [done|].
    cbv zeta. split_and!; ev.
  - exists (env_both_fail true), sub_or_else, "u", ∅. split; [apply flow_of_built; ev|]. split; [done|]. split; [apply env_both_fail_built|]. split; [done|]. split; [done|].
    cbv zeta. split_and!; ev.
Qed.
