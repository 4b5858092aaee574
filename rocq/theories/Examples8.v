(** Cases for the theorems about references and the subflow activity. *)
From Verif Require Export Refs Examples5.
Local Open Scope Z_scope.

(** The input of the activity of "a" is mapped (test data). *)
Definition b1 : benv := mk_benv (b_expr b0) (b_toint b0) (b_tobool b0) (b_toobj b0) (b_resolve b0) (b_setmap b0)
  (fun _ r => Some (mk_act_cfg (ar_ref r) (String.eqb (ar_ref r) "act.a") (Some ["o"]) false)).
(** A subflow with two inputs and defaults for them (test data). *)
Definition in_sub : defn := flow_of "g" [tr "x"; tr "y"] [ldep "x" "y"] None (Some (mk_md {["p" := VInt 1; "q" := VInt 2]} None)).
(** The flow that starts it, with a task beside (test data). *)
Definition in_flow : defn :=
  match new_definition b1 (mk_def_rep false "f" "" (Some (mk_md {["p" := VInt 3; "q" := VInt 4]} None)) [tr "a"; tr "b"; tr "c"] [ldep "a" "b"] None) with
  | BOk d => d
  | BErr _ => in_sub
  end.
(** "a" starts the subflow, and maps one of the inputs (test data). *)
Definition act_in : nat -> view -> act := fun n v =>
  if bool_decide (v_task v = "a") then subflow_eval (DOk in_sub) "g" v else act_ok n v.
Definition env_in : env := set_e_def (fun _ uri => if String.eqb uri "g" then DOk in_sub else DNil)
  (set_e_inmap (fun _ v => if bool_decide (v_task v = "a") then XOk {["p" := VInt 7]} else XOk ∅) (env1 act_in)).
(** The same, but the subflow is not there (test data). *)
Definition act_lost : nat -> view -> act := fun n v =>
  if bool_decide (v_task v = "a") then subflow_eval DNil "g" v else act_ok n v.
Definition env_lost : env := set_e_def (fun _ _ => DNil) (set_e_act act_lost env_in).

Lemma env_in_unscoped k : ~ scoped env_in k.
Proof.
  intros (j & v & [Hs|(a & Ha & _)]); [|done]. revert Hs. change (e_act env_in j v) with (act_in j v). unfold act_in. case_bool_decide; cbn; tauto.
Qed.
Lemma env_in_gives k : k <> "p" -> k <> "q" -> ~ gives env_in k.
Proof.
  intros Hp Hq (j & v & [Hs|(a & Ha & _)]); [|done]. revert Hs. change (e_act env_in j v) with (act_in j v). unfold act_in.
  case_bool_decide; [|cbn; tauto]. unfold subflow_eval. cbn [act_gives]. intros [[w Hw]|[[]|[]]].
  change (sub_inputs (DOk in_sub) (v_in v)) with (map_imap (fun n _ => Some (default VNil (v_in v !! n))) ({["p" := VInt 1; "q" := VInt 2]} : vmap)) in Hw.
  rewrite map_lookup_imap, lookup_insert_ne, lookup_singleton_ne in Hw by done. done.
Qed.
Lemma env_in_mappers : mappers_ok env_in.
Proof.
  split; [|done]. intros n v. change (exists m : vmap, (if bool_decide (v_task v = "a") then XOk {["p" := VInt 7]} else XOk ∅) = XOk m). case_bool_decide; eauto.
Qed.
Lemma env_in_settings : settings_ok env_in.
Proof. intros n v. by eexists. Qed.
Lemma after_later E n s0 s : later E s0 s -> later E s0 (after E n s).
Proof. revert s. induction n as [|n IH]; intros s H; [done|]. cbn [after]. apply IH. by constructor. Qed.
Lemma sees_check s i t : match s_tis s !! t with Some x => Nat.eqb (ti_inst x) i | None => false end = true -> sees s i (view_of s t).
Proof. destruct (s_tis s !! t) as [x|] eqn:Hx; [|done]. intros H%Nat.eqb_eq. by exists t, x. Qed.
Definition one_call (m : vmap) (l : list (vmap * option wval)) : bool :=
  match l with [(m', None)] => bool_decide (m' = m) | _ => false end.
Lemma one_call_ok m l : one_call m l = true -> l = [(m, None)].
Proof. destruct l as [|[m' []] []]; try done. by intros <-%bool_decide_eq_true. Qed.
Lemma in_sub_startable : startable in_sub.
Proof.
  intros tk Htk Hn. assert (forallb (fun tk => match t_act tk with Some _ => true | None => false end) (start_tasks (d_tasks in_sub)) = true) as H by ev.
  rewrite forallb_forall in H. apply elem_of_list_In, H in Htk. by rewrite Hn in Htk.
Qed.

(** A default is lost. *)
Lemma default_lost : exists E d0 g uri s t x s1 ins it v v',
  running E d0 uri s /\ evaluates E s t x (inr EvalWait) s1 /\ starts_subflow E x "g" (DOk g) /\ startable g /\
  calls (ti_inst x) (t_id (ti_task x)) (happened s s1) = [(ins, it)] /\ ins !! "q" = None /\ declared g "q" = Some (VInt 2) /\
  sees (do_step E s).2 (S (s_sfctr s)) v /\ (forall pv, resolve pv v (RFlow "q") = Some VNil) /\
  sees (started E g "g" ins) 0 v' /\ (forall pv, resolve pv v' (RFlow "q") = Some (VInt 2)).
Proof.
  set (E := env_in). set (s := started E in_flow "u" ∅).
  destruct (eval_check E s (fun t x r s1 => bool_decide (r = inr EvalWait /\ t_id (ti_task x) = "a") &&
    one_call {["p" := VInt 7]} (calls (ti_inst x) (t_id (ti_task x)) (happened s s1)))) as (t & x & r & s1 & Ev & H); [ev|].
  apply andb_true_iff in H as [H H2]. apply one_call_ok in H2. apply bool_decide_eq_true in H as (-> & H1).
  exists E, in_flow, in_sub, "u", s, t, x, s1, {["p" := VInt 7]}, None, (view_of (do_step E s).2 2), (view_of (started E in_sub "g" {["p" := VInt 7]}) 0).
  split; [apply (started_running _ _ _ _ 0)|]. split; [assumption|]. split; [|split; [|split; [assumption|]]].
  - split; [done|]. intros n v _ Hv. change (act_in n v = subflow_eval (DOk in_sub) "g" v). unfold act_in. by rewrite bool_decide_eq_true_2 by congruence.
  - apply in_sub_startable.
  - split; [ev|]. split; [ev|]. split; [apply sees_check; ev|]. split; [intros pv; ev|]. split; [apply sees_check; ev|]. intros pv; ev.
Qed.
