(** Test data and checks for Props_SubErrors.v. Not part of the model; the values have no Go counterpart. *)
From Verif Require Export SubErrors Examples5 Examples10 Findings2.
Local Open Scope Z_scope.

(** "x" is done, the expression behind it cannot be evaluated (test data). *)
Definition sub_expr (eh : option (list task_rep * list link_rep)) : defn := flow_of "g" [tr "x"; tr "y"; tr "z"] [lexpr "x" "y" "err"] eh None.
(** "x" fails; the handler has a link whose expression cannot be evaluated (test data). *)
Definition sub_bad_handler : defn := flow_of "g" [tr "x"] [] (Some ([tr "h1"; tr "h2"], [lexpr "h1" "h2" "err"])) None.
(** The task "a" starts the subflow [g]; "x" succeeds or fails (test data). *)
Definition act_sub (ok : bool) (n : nat) (v : view) : act :=
  if bool_decide (v_task v = "x") && negb ok then AEnd (AErr (EOther "x")) else sub_act ["a"] n v.
Definition env_expr (g : defn) (ok : bool) : env := set_e_def (fun _ _ => DOk g) (env0 (act_sub ok)).
(** A subflow whose iterator panics, with a handler; the same with a handler that panics (test data). *)
Definition sub_boom : defn := flow_of "g" [tr "x"; trs "it" "iterator" {["iterate" := VStr "=$.x"]}; tr "y"] [ldep "x" "it"] (Some ([tr "h1"; tr "h2"; tr "h3"], [ldep "h1" "h3"])) None.
Definition sub_boom_handler : defn := flow_of "g" [tr "x"] [] (Some ([trs "it" "iterator" {["iterate" := VStr "=$.x"]}], [])) None.
Definition env_sub_panic (g : defn) (ok : bool) : env := set_e_iter (fun _ _ _ => XPanic "boom") (env_expr g ok).
Lemma env_expr_built g ok : built g -> built_env (env_expr g ok).
Proof. intros B n u d [= <-]. exact B. Qed.

(** The handler of a subflow ends with an expression that fails, or with a panic: the host is never told. *)
Lemma host_never_told :
  (exists E ro d uri ins, built d /\ built_env E /\ d_eh d = None /\ SpecSub.recordable E /\ e_conc E = false /\
    (run_flow E ro d uri ins).1 = Ok tt /\ statuses 1 (run_flow E ro d uri ins).2 = [FActive; FFailed] /\
    main_status (run_flow E ro d uri ins).2 = Some FActive /\ delivered (run_flow E ro d uri ins).2 = [] /\ s_queue (run_flow E ro d uri ins).2 = []) /\
  (exists E ro d uri ins, built d /\ built_env E /\ d_eh d = None /\ SpecSub.recordable E /\ e_conc E = false /\
    (run_flow E ro d uri ins).1 = Ok tt /\ statuses 1 (run_flow E ro d uri ins).2 = [FActive] /\
    main_status (run_flow E ro d uri ins).2 = Some FActive /\ delivered (run_flow E ro d uri ins).2 = [] /\ s_queue (run_flow E ro d uri ins).2 = []).
Proof.
  split.
  - exists (env_expr sub_bad_handler false), ro0, call_one, "u", ∅. split; [apply flow_of_built; ev|]. split; [apply env_expr_built, flow_of_built; ev|].
    split; [ev|]. split; [exists RMOff; split; [done|by right]|]. split_and!; ev.
  - exists (env_sub_panic sub_boom_handler false), ro0, call_one, "u", ∅. split; [apply flow_of_built; ev|]. split; [apply env_expr_built, flow_of_built; ev|].
    split; [ev|]. split; [exists RMOff; split; [done|by right]|]. split_and!; ev.
Qed.
Lemma next_panic_state E s t x m s1 : panics E s t x m s1 -> s1 = match next_panic E s with Some p => p.2 | None => s end.
Proof.
  intros (Hm & Hx & w & q & Hq & Hb). unfold next_panic. rewrite Hm, Hq, Hx, bool_decide_true by done. by rewrite Hb.
Qed.
