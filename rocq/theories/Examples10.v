(** Test data and findings beside the properties of panics. *)
From Verif Require Export Calm Panics Findings Examples5.
Local Open Scope Z_scope.

(** The named tasks panic (test data). *)
Definition act_boom (l : list string) : nat -> view -> act := fun n v => if bool_decide (v_task v ∈ l) then AEnd (APanic "boom") else act_ok n v.
(** Two tasks in a row, with and without an error handler (test data). *)
Definition boom_eh : defn := flow_of "f" [tr "a"; tr "b"] [ldep "a" "b"] (Some ([tr "h"], [])) None.
Definition boom_no : defn := flow_of "f" [tr "a"; tr "b"] [ldep "a" "b"] None None.
(** A subflow in which "x" panics (test data). *)
Definition env_sub_boom : env := set_e_act (fun n v => if bool_decide (v_task v = "x") then AEnd (APanic "boom") else sub_act ["a"] n v) env_sub.

(** An iterator whose expression panics (test data). *)
Definition boom_iter : defn := flow_of "f" [tr "a"; trs "it" "iterator" {["iterate" := VStr "=$.x"]}] [ldep "a" "it"] (Some ([tr "h"], [])) None.
Definition env_iter_boom : env := set_e_iter (fun _ _ _ => XPanic "boom") (env0 act_ok).

(** An error handler that starts with a task with mapped settings; settings mappers panic (test data). *)
Definition boom_set : defn := flow_of "f" [tr "a"; trm "b"] [ldep "a" "b"] (Some ([trm "h"], [])) None.
Definition env_boom (a : act) : env := set_e_setmap (fun _ _ => XPanic "settings") (env0 (fun _ _ => a)).

(** Definitions whose tasks all have an activity. *)
Lemma all_acting d : forallb (fun tk => bool_decide (is_Some (t_act tk))) (all_tasks d) = true -> starts_acting (d_tasks d) /\ handler_acting d.
Proof.
  intros H. rewrite forallb_forall in H.
  assert (K : forall tk, tk ∈ all_tasks d -> t_act tk <> None).
  { intros tk Hk%elem_of_list_In%H Hn. apply bool_decide_eq_true in Hk. rewrite Hn in Hk. by destruct Hk. }
  split.
  - intros tk Hk _. apply K, elem_of_app. by left.
  - intros h Hh tk Hk _. apply K. unfold all_tasks. rewrite Hh. apply elem_of_app. by right.
Qed.
Lemma env0_recordable a : SpecSub.recordable (env0 a).
Proof. exists RMOff. split; [done|]. by right. Qed.

Lemma handler_panics : exists E d uri s m, built d /\ built_env E /\ NoDup (t_id <$> all_tasks d) /\ starts_acting (d_tasks d) /\ handler_acting d /\
  SpecSub.recordable E /\ e_conc E = false /\ running E d uri s /\ (do_step E s).1 = Panic m.
Proof.
  set (E := env_boom (AEnd ADone)).
  exists E, boom_set, "u", (started E boom_set "u" ∅), "settings".
  destruct (all_acting boom_set) as [H1 H2]; [ev|].
  split_and!; [apply flow_of_built; ev|done|apply (bool_decide_unpack _); ev|done|done|exists RMOff; split; [done|by right]|done|constructor|ev].
Qed.
Lemma panic_dropped : exists E ro d uri ins e, built d /\ built_env E /\ NoDup (t_id <$> all_tasks d) /\ starts_acting (d_tasks d) /\ handler_acting d /\
  SpecSub.recordable E /\ e_conc E = false /\ (forall n v, e_act E n v = AEnd (AErr e)) /\
  (run_flow E ro d uri ins).1 = Ok tt /\ main_status (run_flow E ro d uri ins).2 = Some FActive /\
  delivered (run_flow E ro d uri ins).2 = [] /\ evaluations (run_flow E ro d uri ins).2 = [(0%nat, "a")].
Proof.
  set (E := env_boom (AEnd (AErr (EOther "bad")))).
  exists E, ro0, boom_set, "u", ∅, (EOther "bad").
  destruct (all_acting boom_set) as [H1 H2]; [ev|].
  split_and!; [apply flow_of_built; ev|done|apply (bool_decide_unpack _); ev|done|done|exists RMOff; split; [done|by right]|done|done|ev..].
Qed.

(** The iterator in a flow without an error handler and in a subflow (test data). *)
Definition iter_no : defn := flow_of "f" [tr "a"; trs "it" "iterator" {["iterate" := VStr "=$.x"]}] [ldep "a" "it"] None None.
Definition iter_host : defn := flow_of "f" [tr "a"; tr "c"; tr "d"] [ldep "c" "d"] None None.
Definition env_iter_sub : env := set_e_def (fun _ _ => DOk iter_no) (set_e_iter (fun _ _ _ => XPanic "boom") (env1 (fun n v =>
  if (v_inst v =? 0)%nat then sub_act ["a"] n v else act_ok n v))).

(** The next execution, if it panics (a check). *)
Definition next_panic (E : env) (s : st) : option (nat * tinst * string * st) :=
  match main_status s, s_queue s with
  | Some z, (w, t) :: q =>
      match s_tis s !! t with
      | Some x => if bool_decide (z = FActive) then
          match exec_body E t (set_s_log (EvQDel w (ti_inst x) (t_id (ti_task x)) :: s_log s) (set_s_queue q (set_s_step (S (s_step s)) s))) with
          | (Panic m, s1) => Some (t, x, m, s1) | _ => None end else None
      | None => None end
  | _, _ => None
  end.
Lemma panic_check E s (p : nat -> tinst -> string -> st -> bool) :
  match next_panic E s with Some (t, x, m, s1) => p t x m s1 | None => false end = true ->
  exists t x m s1, panics E s t x m s1 /\ p t x m s1 = true.
Proof.
  unfold next_panic. destruct (main_status s) as [z|] eqn:Hz; [|done]. destruct (s_queue s) as [|[w t] q] eqn:Hq; [done|].
  destruct (s_tis s !! t) as [x|] eqn:Hx; [|done]. destruct (bool_decide (z = FActive)) eqn:Ha; [|done]. apply bool_decide_eq_true in Ha.
  destruct (exec_body _ _ _) as [[r|m| |] s1] eqn:Hr; try done. intros Hp. exists t, x, m, s1. split; [|done]. split_and!; [by rewrite Hz, Ha|done|]. eauto.
Qed.
