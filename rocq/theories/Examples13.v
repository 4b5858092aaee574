(** Test data and checks for Props_OnDemand.v. Not part of the model; the values have no Go counterpart. *)
From Verif Require Export OnDemandProofs Examples12.
Local Open Scope Z_scope.

(** A flow that fails with the last step it is allowed: two results, the second of them after the message about the limit. *)
Lemma two_results : exists E d ins mx e, built d /\ built_env E /\ (start (od_env E) ins (init_st d "")).1 = Ok tt /\
  (on_demand E mx d ins).1 = Ok tt /\ main_status (on_demand E mx d ins).2 = Some FFailed /\
  drop 1 (delivered (on_demand E mx d ins).2) = [(None, Some (limit_err E (mk_ro 0 false false "" mx))); (None, Some e)] /\
  drop 1 (delivered (run_flow (od_env E) (mk_ro 0 true false "" mx) d "" ins).2) = [(None, Some (limit_err E (mk_ro 0 false false "" mx)))].
Proof.
  exists (env0 (act_sub false)), (flow_of "f" [tr "y"; tr "x"] [ldep "y" "x"] None None), ∅, 2, (EOther "x").
  split; [apply flow_of_built; ev|]. split; [by intros n u d|]. split_and!; ev.
Qed.

(** A subflow of an on-demand run fails ("x" fails, no error handler): the run ends, the main flow is still active and nothing but the id was given; the same run
    with a recorder fails with the error. *)
Lemma subflow_failure_lost : exists E d ins mx e, built d /\ built_env E /\ (on_demand E mx d ins).1 = Ok tt /\
  main_status (on_demand E mx d ins).2 = Some FActive /\ statuses 1 (on_demand E mx d ins).2 = [FActive; FFailed] /\ s_queue (on_demand E mx d ins).2 = [] /\
  length (delivered (on_demand E mx d ins).2) = 1%nat /\
  main_status (run_flow E (mk_ro 0 true false "" mx) d "" ins).2 = Some FFailed /\ drop 1 (delivered (run_flow E (mk_ro 0 true false "" mx) d "" ins).2) = [(None, Some e)].
Proof.
  exists (env_expr (flow_of "g" [tr "x"] [] None None) false), call_one, ∅, 10, (EOther "x").
  split; [apply flow_of_built; ev|]. split; [apply env_expr_built, flow_of_built; ev|]. split_and!; ev.
Qed.
(** "x" is done, the iterator panics, there is no handler (test data). *)
Definition sub_boom_plain : defn := flow_of "g" [tr "x"; trs "it" "iterator" {["iterate" := VStr "=$.x"]}] [ldep "x" "it"] None None.
(** A panic in a subflow of an on-demand run is not caught: the whole run panics; the same run with a recorder fails with an error. *)
Lemma subflow_panic_escapes : exists E d ins mx, built d /\ built_env E /\
  (match (on_demand E mx d ins).1 with Panic _ => True | _ => False end) /\ length (delivered (on_demand E mx d ins).2) = 1%nat /\
  (run_flow E (mk_ro 0 true false "" mx) d "" ins).1 = Ok tt /\ main_status (run_flow E (mk_ro 0 true false "" mx) d "" ins).2 = Some FFailed /\
  length (delivered (run_flow E (mk_ro 0 true false "" mx) d "" ins).2) = 2%nat.
Proof.
  exists (env_sub_panic sub_boom_plain true), call_one, ∅, 10.
  split; [apply flow_of_built; ev|]. split; [apply env_expr_built, flow_of_built; ev|]. split; [vm_compute; exact I|]. split_and!; ev.
Qed.
(** The first result has no usable id. *)
Lemma no_id_check (r : list (option vmap * option err)) :
  match head r with Some (Some m, _) => match m !! "id" with Some (VStr _) => false | _ => true end | _ => true end = true ->
  forall m e t, head r = Some (Some m, e) -> m !! "id" <> Some (VStr t).
Proof. intros H m e t Hm Hi. by rewrite Hm, Hi in H. Qed.
Lemma id_check (r : list (option vmap * option err)) i :
  match head r with Some (Some m, None) => match m !! "id" with Some (VStr t) => String.eqb t i | _ => false end | _ => false end = true ->
  exists m, head r = Some (Some m, None) /\ m !! "id" = Some (VStr i).
Proof.
  intros H. destruct (head r) as [[[m|] [?|]]|]; try done. exists m. split; [done|]. destruct (m !! "id") as [[]|] eqn:Hi; try done. by apply String.eqb_eq in H as ->.
Qed.
Lemma id_unusable : exists E d ins mx, built d /\ built_env E /\ main_status (on_demand E mx d ins).2 = Some FCompleted /\
  length (delivered (on_demand E mx d ins).2) = 2%nat /\
  (forall m e t, head (delivered (on_demand E mx d ins).2) = Some (Some m, e) -> m !! "id" <> Some (VStr t)) /\
  (exists m, head (delivered (run_flow (od_env E) (mk_ro 0 true false "" mx) d "" ins).2) = Some (Some m, None) /\ m !! "id" = Some (VStr (e_id E))).
Proof.
  exists (env0 act_ok), (flow_of "f" [tr "y"; tr "z"] [ldep "y" "z"] None None), ∅, 10.
  split; [apply flow_of_built; ev|]. split; [by intros n u d|]. split; [ev|]. split; [ev|]. split; [apply no_id_check; ev|apply id_check; ev].
Qed.
(** The inputs cannot be mapped: the flow runs all the same. *)
Lemma ran_check (o : od_outcome) n : match o with OdRan (Ok _) s => bool_decide (main_status s = Some FCompleted) && bool_decide (length (evaluations s) = n) | _ => false end = true ->
  exists s, o = OdRan (Ok tt) s /\ main_status s = Some FCompleted /\ length (evaluations s) = n.
Proof. intros H. destruct o as [| |[[]| | |] s]; try done. apply andb_prop in H as [H1%bool_decide_eq_true H2%bool_decide_eq_true]. eauto. Qed.
Lemma inputs_error_ignored : exists E b mx r e s, od_action E b mx (Some r) (Some (XErr e)) = OdRan (Ok tt) s /\
  main_status s = Some FCompleted /\ length (evaluations s) = 2%nat.
Proof.
  exists (env0 act_ok), b0, 10, (mk_def_rep false "f" "" None [tr "y"; tr "z"] [ldep "y" "z"] None), (EOther "no such field"). apply ran_check. ev.
Qed.
