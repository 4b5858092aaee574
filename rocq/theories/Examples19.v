(** Test data and checks for Props_Retries.v. Not part of the model; the values have no Go counterpart. *)
From Verif Require Export Rounds Examples2 Examples14 Findings3 SpecSub.
Local Open Scope Z_scope.

(** The calls of the activity in one evaluation of a basic task. *)
Lemma retried_only E d uri s t x r s1 c :
  running E d uri s -> evaluates E s t x r s1 -> ti_status x <> TWaiting -> t_type (ti_task x) = TBasic ->
  retries_left (ti_task x) (ti_wd x) c -> smooth E (ti_task x) ->
  exists bad o, outcomes (ti_inst x) (t_id (ti_task x)) (happened s s1) = bad ++ [o] /\
    forall o', o' ∈ bad -> exists m cd dt n, o' = Some (EAct m cd dt true n).
Proof.
  intros R Ev Hw Ht Hc Hs. destruct (basic_calls E d uri s t x r s1 c R Ev Hw Ht Hc Hs) as (r0 & Hr & _).
  destruct (retried_counts _ _ _ Hr) as (bad & o & -> & H1 & H2 & _). exists bad, o. split; [done|].
  intros [e|] He; [|done]. specialize (H1 e He). destruct e; try done. cbn in H1. subst. eauto.
Qed.

(** An iterator over two elements with one retry (test data). *)
Definition retry_both : defn := flow_of "f"
  [trs "a" "iterator" {["iterate" := VArr [VStr "x"; VStr "y"]; "retryOnError" := VObj [("count", VInt 1); ("interval", VInt 0)]]}; tr "b"] [ldep "a" "b"] None None.
(** The external calls [l] fail with an error that can be retried (test data). *)
Definition env_calls (l : list nat) : env :=
  env1 (fun n v => if bool_decide (n ∈ l) then AEnd (AErr (EAct "failed" "42" VNil true "")) else act_ok n v).
Lemma retries_shared : exists E1 E2 E12 d uri ins, built d /\ acyclic d /\ (exists tk, tk ∈ d_tasks d /\ t_id tk = "a" /\ retries_left tk ∅ 1) /\
  let o E := ((fun o => bool_decide (o = None)) <$> outcomes 0 "a" (trace (run_flow E ro0 d uri ins).2), main_status (run_flow E ro0 d uri ins).2) in
  o E1 = ([false; true; true], Some FCompleted) /\ o E2 = ([true; false; true], Some FCompleted) /\ o E12 = ([false; true; false], Some FFailed) /\
  forall e, Some e ∈ outcomes 0 "a" (trace (run_flow E12 ro0 d uri ins).2) -> retriable e = true.
Proof.
  exists (env_calls [1]%nat), (env_calls [4]%nat), (env_calls [1; 6]%nat), retry_both, "u", ∅. split; [apply flow_of_built; ev|]. split.
  { exists (fun _ n => if String.eqb n "a" then 0 else 1)%nat. intros l Hl. vm_compute in Hl. apply elem_of_list_singleton in Hl as ->. vm_compute. lia. }
  split.
  { destruct (head (d_tasks retry_both)) as [tk|] eqn:Hh; [|by vm_compute in Hh]. vm_compute in Hh. injection Hh as <-.
    eexists. split; [left|]. split; [ev|]. by split; [exists 0|]. }
  cbv zeta. split; [ev|]. split; [ev|]. split; [ev|].
  assert (forallb (fun o => match o with Some e => retriable e | None => true end) (outcomes 0 "a" (trace (run_flow (env_calls [1; 6]%nat) ro0 retry_both "u" ∅).2)) = true) as Hf by ev.
  intros e He. rewrite forallb_forall in Hf. exact (Hf _ (proj1 (elem_of_list_In _ _) He)).
Qed.

(** "a" starts a subflow and has one retry (test data). *)
Definition retry_sub : defn := flow_of "f"
  [trs "a" "" {["retryOnError" := VObj [("count", VInt 1); ("interval", VInt 0)]]}; tr "b"] [ldep "a" "b"] None None.
(** The task of the subflow fails with an error that must not be retried (test data). *)
Definition env_retry_sub : env := rec_env RMOff (set_e_def (fun _ _ => DOk (flow_of "sub" [tr "x"] [] None None))
  (env1 (fun n v => if String.eqb (v_task v) "x" then AEnd (AErr (EAct "failed" "42" VNil false "")) else sub_act ["a"] n v))).
Lemma post_retries_all : exists E d uri ins, built d /\ acyclic d /\ built_env E /\ SpecSub.recordable E /\ e_conc E = false /\
  let s := (run_flow E ro0 d uri ins).2 in
  (run_flow E ro0 d uri ins).1 = Ok tt /\ evaluations s = [(0, "a"); (1, "x"); (0, "a"); (2, "x")]%nat /\
  outcomes 1 "x" (trace s) = [Some (EAct "failed" "42" VNil false "x")] /\ delivered s = [(None, Some (EAct "failed" "42" VNil false "x"))].
Proof.
  exists env_retry_sub, retry_sub, "u", ∅. split; [apply flow_of_built; ev|]. split.
  { exists (fun _ n => if String.eqb n "a" then 0 else 1)%nat. intros l Hl. vm_compute in Hl. apply elem_of_list_singleton in Hl as ->. vm_compute. lia. }
  split; [intros n uri d [= <-]; apply flow_of_built; ev|]. split; [exists RMOff; split; [done|by right]|]. split; [done|]. cbv zeta. split_and!; ev.
Qed.
