(** More witnesses for properties the engine does not have. *)
From Verif Require Export Findings.
Local Open Scope Z_scope.

(** Side conditions and facts that computation decides. *)
Ltac fact rank :=
  lazymatch goal with
  | |- forall n u, e_def _ n u = _ => reflexivity
  | |- _ = _ => ev
  | |- (_ < _)%Z => ev
  | |- _ => side rank
  end.

(** Activities named in [l] start the subflow called like their task and wait for it (test data). *)
Definition sub_named (l : list string) : nat -> view -> act := fun n v =>
  if bool_decide (v_task v ∈ l) then AStart (v_task v) ∅ (AEnd (AErr (EOther "no flow"))) (AEnd AWait) else act_ok n v.
(** A task without activity (test data). *)
Definition noact (id : string) : task_rep := mk_task_rep id "" id ∅ None.
(** A task starting a subflow and its successor (test data). *)
Definition call_one : defn := flow_of "f" [tr "a"; tr "b"] [ldep "a" "b"] None None.

(** ** Completed, then failed *)

(** The first of two skipped tasks completes the flow, entering the second one panics. *)
Definition late_panic : defn :=
  flow_of "f" [tr "p"; tr "a"; noact "n"] [lexpr "p" "a" "false"; lexpr "p" "n" "false"] None None.
Lemma completed_then_failed :
  exists E ro d uri ins, built d /\ acyclic d /\ no_parallel d /\ sync_env true E /\ links_ok E /\ settings_ok E /\ mappers_ok E /\
    e_icpt E = None /\ e_conc E = false /\
    statuses 0 (run_flow E ro d uri ins).2 = [FActive; FCompleted; FFailed].
Proof.
  exists (env1 act_ok), ro0, late_panic, "u", ∅.
  split_and!; fact (fun (_ : bool) (x : string) => if String.eqb x "p" then 0%nat else 1%nat).
Qed.

(** ** Completed with tasks left *)

(** A skipped end task completes the flow although the other successor, on a cycle, is entered. *)
Definition skipped_and_cycle : defn :=
  flow_of "f" [tr "p"; tr "a"; tr "b"; tr "c"]
    [lexpr "p" "a" "false"; lexpr "p" "b" "false"; ldep "b" "c"; ldep "c" "b"] None None.
(** Deciding that a task of the main flow has a status. *)
Definition has_status (s : st) (id : string) (z : Z) : bool :=
  match s_insts s !! 0%nat with
  | Some y => match i_tasks y !! id with
              | Some t => match s_tis s !! t with Some x => Z.eqb (ti_status x) z | None => false end
              | None => false end
  | None => false end.
Lemma has_status_ok s id z : has_status s id z = true ->
  exists y t x, s_insts s !! 0%nat = Some y /\ i_tasks y !! id = Some t /\ s_tis s !! t = Some x /\ ti_status x = z.
Proof.
  unfold has_status. destruct (s_insts s !! 0%nat) as [y|]; [|done]. destruct (i_tasks y !! id) as [t|] eqn:Ht; [|done].
  destruct (s_tis s !! t) as [x|] eqn:Hx; [|done]. intros H%Z.eqb_eq. eauto 10.
Qed.
Lemma completed_with_entered :
  exists E ro d uri ins, built d /\ no_parallel d /\ plain_tasks d /\ d_eh d = None /\
    sync_env true E /\ links_ok E /\ settings_ok E /\ mappers_ok E /\ e_icpt E = None /\ e_conc E = false /\
    main_status (run_flow E ro d uri ins).2 = Some FCompleted /\
    exists y t x, s_insts (run_flow E ro d uri ins).2 !! 0%nat = Some y /\ i_tasks y !! "b" = Some t /\
      s_tis (run_flow E ro d uri ins).2 !! t = Some x /\ ti_status x = TEntered.
Proof.
  exists (env1 act_ok), ro0, skipped_and_cycle, "u", ∅.
  split_and!; fact (fun (_ : bool) (_ : string) => 0%nat). apply has_status_ok. ev.
Qed.

(** ** Offset behind the limit *)
Definition two_starts : defn := flow_of "f" [tr "a"; tr "b"] [] None None.
Lemma offset_behind_limit :
  exists E ro d uri ins, built d /\ sync_env true E /\ ro_max ro < first_count ro /\
    (run_flow E ro d uri ins).1 = Ok tt /\ main_status (run_flow E ro d uri ins).2 = Some FActive /\
    delivered (run_flow E ro d uri ins).2 = [].
Proof.
  exists (env1 act_ok), (mk_ro 7 false false "" 5), two_starts, "u", ∅.
  split_and!; fact (fun (_ : bool) (_ : string) => 0%nat).
Qed.

(** ** Results of subflows *)

(** A subflow with a declared output that has a default value (test data). *)
Definition sub_out : defn := flow_of "sub" [tr "x"] [] None (Some (mk_md ∅ (Some {[ "o" := VInt 7 ]}))).
Definition env_out : env := set_e_def (fun _ _ => DOk sub_out) (env1 (sub_named ["a"])).
Lemma subflow_outputs_lost :
  exists E ro d uri ins sub, built d /\ built sub /\ (forall n u, e_def E n u = DOk sub) /\
    statuses 1 (run_flow E ro d uri ins).2 = [FActive; FCompleted] /\
    result_data <$> s_insts (run_flow E ro d uri ins).2 !! 1%nat = Some (Some {[ "o" := VInt 7 ]}) /\
    (i_attrs <$> s_insts (run_flow E ro d uri ins).2 !! 0%nat) ≫= lookup "_A.a.o" = None /\
    (i_attrs <$> s_insts (run_flow (set_e_listener true E) ro d uri ins).2 !! 0%nat) ≫= lookup "_A.a.o" = Some (VInt 7).
Proof.
  exists env_out, ro0, call_one, "u", ∅, sub_out.
  split_and!; fact (fun (_ : bool) (_ : string) => 0%nat).
Qed.

(** A subflow one of whose branches fails while the others finish later (test data). *)
Definition sub_branches : defn := flow_of "sub" [tr "x"; tr "y"; tr "z"] [] None None.
Definition env_branches : env := set_e_def (fun _ _ => DOk sub_branches)
  (env1 (fun n v => if bool_decide (v_task v = "x") then act_fail ["x"] n v else sub_named ["a"] n v)).
(** A subflow that returns an error (test data). *)
Definition env_return : env := set_e_def (fun _ _ => DOk sub_out)
  (env1 (fun n v => if bool_decide (v_task v = "x") then AReturn None (Some (EOther "bad")) (AEnd ADone)
                    else sub_named ["a"] n v)).
Lemma subflow_error_lost :
  (exists E ro d uri ins, built d /\ d_eh d = None /\ built_env E /\
    statuses 1 (run_flow E ro d uri ins).2 = [FActive; FFailed; FCompleted] /\
    evaluations (run_flow E ro d uri ins).2 = [(0, "a"); (1, "x"); (1, "y"); (1, "z"); (0, "b")]%nat /\
    main_status (run_flow E ro d uri ins).2 = Some FCompleted /\ delivered (run_flow E ro d uri ins).2 = [(None, None)]) /\
  (exists E ro d uri ins e, built d /\ d_eh d = None /\ built_env E /\
    i_rerr <$> s_insts (run_flow E ro d uri ins).2 !! 1%nat = Some (Some e) /\
    evaluations (run_flow E ro d uri ins).2 = [(0, "a"); (1, "x"); (0, "b")]%nat /\
    main_status (run_flow E ro d uri ins).2 = Some FCompleted /\ delivered (run_flow E ro d uri ins).2 = [(None, None)]).
Proof.
  split.
  - exists env_branches, ro0, call_one, "u", ∅. split_and!; fact (fun (_ : bool) (_ : string) => 0%nat).
    intros n u d [= <-]. apply flow_of_built. ev.
  - exists env_return, ro0, call_one, "u", ∅, (EOther "bad"). split_and!; fact (fun (_ : bool) (_ : string) => 0%nat).
    intros n u d [= <-]. apply flow_of_built. ev.
Qed.

(** A subflow with an error handler beside a slow subflow (test data). *)
Definition sub_handler : defn := flow_of "sub" [tr "x"] [] (Some ([tr "h"], [])) None.
Definition sub_slow : defn :=
  flow_of "slow" [tr "s1"; tr "s2"; tr "s3"; tr "s4"] [ldep "s1" "s2"; ldep "s2" "s3"; ldep "s3" "s4"] None None.
Definition env_handler : env := set_e_def (fun _ u => if String.eqb u "a" then DOk sub_handler else DOk sub_slow)
  (env1 (fun n v => if bool_decide (v_task v = "x") then act_fail ["x"] n v else sub_named ["a"; "w"] n v)).
Definition two_calls : defn := flow_of "f" [tr "a"; tr "w"] [] None None.
(** The ids of the tasks in the table of the main flow, with their status. *)
Definition table (s : st) : list (string * Z) :=
  match s_insts s !! 0%nat with
  | Some y => omap (fun p => (fun x => (p.1, ti_status x)) <$> s_tis s !! p.2) (map_to_list (i_tasks y))
  | None => [] end.
Lemma handler_disturbs_parent :
  exists E d uri ins, built d /\ d_eh d = None /\ built_env E /\
    let s n := after E n (started E d uri ins) in
    table (s 2%nat) = [("a", TWaiting); ("w", TWaiting)] /\
    (exists w, executed (s 3%nat) = executed (s 2%nat) ++ [(w, 1, "x")]%nat) /\ table (s 3%nat) = [] /\
    main_status (s 7%nat) = Some FCompleted /\ (2%nat, "s4") ∉ evaluations (s 7%nat) /\
    ti_status <$> s_tis (s 7%nat) !! 1%nat = Some TWaiting.
Proof.
  exists env_handler, two_calls, "u", ∅. cbv zeta. split_and!; fact (fun (_ : bool) (_ : string) => 0%nat).
  - intros n u d Hd. unfold env_handler, set_e_def in Hd. cbn in Hd. destruct (String.eqb u "a"); injection Hd as <-; apply flow_of_built; ev.
  - exists 3%nat. ev.
  - apply (bool_decide_eq_false_1 _). ev.
Qed.

(** ** Names in the flow scope *)

(** Task "a" has an output "b.o", task "a.b" an output "o" (test data). *)
Definition b_dots : benv := mk_benv (b_expr b0) (b_toint b0) (b_tobool b0) (b_toobj b0) (b_resolve b0) (b_setmap b0)
  (fun _ r => Some (mk_act_cfg (ar_ref r) false (Some [if String.eqb (ar_ref r) "act.a" then "b.o" else "o"]) false)).
Definition dotted : defn :=
  match new_definition b_dots (mk_def_rep false "f" "" None [tr "a"; tr "a.b"] [ldep "a" "a.b"] None) with
  | BOk d => d | BErr _ => mk_defn "" "" false None [] [] None end.
Definition act_dots : nat -> view -> act := fun n v =>
  AOut (if String.eqb (v_task v) "a" then "b.o" else "o") (VStr (v_task v)) (AEnd ADone).
Lemma names_collide :
  exists E d uri ins, built d /\ acyclic d /\ no_parallel d /\ plain_tasks d /\ sync_env true E /\
    let get n := (i_attrs <$> s_insts (after E n (started E d uri ins)) !! 0%nat) ≫= lookup "_A.a.b.o" in
    get 1%nat = Some (VStr "a") /\ get 2%nat = Some (VStr "a.b").
Proof.
  assert (built dotted) as Hb.
  { unfold dotted. exists b_dots, (mk_def_rep false "f" "" None [tr "a"; tr "a.b"] [ldep "a" "a.b"] None). ev. }
  exists (env1 act_dots), dotted, "u", ∅. cbv zeta. split; [exact Hb|].
  split_and!; fact (fun (_ : bool) (x : string) => String.length x).
Qed.

(** ** Observers *)

(** A flow with a declared output that an activity sets (test data). *)
Definition setting_flow : defn := flow_of "f" [tr "a"] [] None (Some (mk_md ∅ (Some {[ "r" := VNil ]}))).
Definition env_setting : env := env1 (fun n v => AScope "r" (VInt 5) (AEnd ADone)).
Lemma observer_changes_result :
  exists E ro d uri ins, built d /\ sync_env true E /\
    delivered (run_flow E ro d uri ins).2 = [(Some {[ "r" := VInt 5 ]}, None)] /\
    delivered (run_flow (set_e_ext true E) ro d uri ins).2 = [(Some ∅, None)] /\
    delivered (run_flow (set_e_listener true E) ro d uri ins).2 = [(Some ∅, None)].
Proof.
  exists env_setting, ro0, setting_flow, "u", ∅. split_and!; fact (fun (_ : bool) (_ : string) => 0%nat).
Qed.

(** ** The skip propagation setting *)
Lemma setting_without_effect E b ro d uri ins :
  run_flow (set_e_propskip b E) ro d uri ins = run_flow E ro d uri ins.
Proof. reflexivity. Qed.
