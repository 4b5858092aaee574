(** What the theorems about references and the subflow activity say. *)
From Verif Require Export SpecVal Resolve.

(** The flow declares an input [n]. *)
Definition declares (d : defn) (n : string) : Prop := exists md, d_md d = Some md /\ is_Some (md_in md !! n).

(** Nothing but the engine gives a value to the attribute [n] of any flow: not an activity, not an input. *)
Definition reserved (E : env) (d : defn) (n : string) : Prop :=
  ~ scoped E n /\ ~ gives E n /\ ~ declares d n /\ forall j uri d', e_def E j uri = DOk d' -> ~ declares d' n.

(** What a task instance of flow [i] sees. *)
Definition sees (s : st) (i : nat) (v : view) : Prop :=
  exists t x, s_tis s !! t = Some x /\ ti_inst x = i /\ v = view_of s t.

(** The text that "$flowctx[n]" stands for in flow [i], which runs [d] ([None]: not one of these). *)
Definition context_text (E : env) (d : defn) (i : nat) (n : string) : option string :=
  if decide (n = "FlowName") then Some (d_name d)
  else if decide (n = "FlowId") then Some (inst_id E i)
  else if decide (n = "AppName") then Some (e_app E)
  else if decide (n = "AppVersion") then Some (e_appver E)
  else None.

(** The activity of the task instance with contents [x] is the subflow activity for [uri], and [look] is what is found
    there. *)
Definition starts_subflow (E : env) (x : tinst) (uri : string) (look : def_res) : Prop :=
  (forall n, e_def E n uri = look) /\
  forall n v, v_inst v = ti_inst x -> v_task v = t_id (ti_task x) -> e_act E n v = subflow_eval look uri v.

(** [d] can be started: its first tasks have activities. *)
Definition startable (d : defn) : Prop := forall tk, tk ∈ start_tasks (d_tasks d) -> t_act tk <> None.

(** [s0]: the flow has just been started with inputs [ins], by the engine or by a run of the action. *)
Definition begins (E : env) (d : defn) (uri : string) (ins : vmap) (s0 : st) : Prop :=
  s0 = started E d uri ins \/ exists ro, run_begin E ro ins (init_st d uri) = (Ok tt, s0).

(** From [s0] to [s] by steps and recording of states. *)
Inductive later (E : env) (s0 : st) : st -> Prop :=
| lt_here : later E s0 s0
| lt_record s : later E s0 s -> later E s0 (record_state E s).2
| lt_step s : later E s0 s -> later E s0 (do_step E s).2.

(** A name that a flow can give to its own inputs: no dot, and not the one of the error. *)
Definition input_name (n : string) : Prop := dotless n /\ n <> "_E".

(** The value the flow declares for an input that it is not given. *)
Definition declared (d : defn) (n : string) : option val := md ← d_md d; md_in md !! n.
