(** Specification vocabulary for expressions that fail, and for the hosts of subflows. *)
From Verif Require Export SpecVal.
Local Open Scope Z_scope.

(** The link has an expression that cannot be evaluated. *)
Definition broken (E : env) (l : link) : Prop :=
  l_type l = LtExpression /\ l_expr l <> None /\ forall n v, exists e, e_link E n v l = XErr e.
(** [e] is an error of an expression of one of the links, with some text before it. *)
Definition expression_error (E : env) (ls : list link) (e : err) : Prop :=
  exists l n v e' p, l ∈ ls /\ l_type l = LtExpression /\ e_link E n v l = XErr e' /\ e = EOther (p +:+ err_text e').

(** The state can be recorded (there is a recorder for what the mode asks for). *)
Definition recordable (E : env) : Prop := exists m, e_rec E = Some m /\ (e_ext E = true \/ record_snapshot m = false /\ record_steps m = false).

(** The task instance [h] has an activity without PostEval. *)
Definition no_post (E : env) (x : tinst) : Prop :=
  forall n v, v_inst v = ti_inst x -> v_task v = t_id (ti_task x) -> e_post E n v = None.

(** From [s0] to [s] by steps and recording of states, none of the steps with task instance [h] or with a task of a
    flow that [h] has started. *)
Inductive undisturbed (E : env) (h : nat) (s0 : st) : st -> Prop :=
| ud_here : undisturbed E h s0 s0
| ud_record s : undisturbed E h s0 s -> undisturbed E h s0 (record_state E s).2
| ud_step s :
    undisturbed E h s0 s ->
    (forall w t q x y, s_queue s = (w, t) :: q -> s_tis s !! t = Some x -> s_insts s !! ti_inst x = Some y ->
       t <> h /\ i_host y <> Some h) ->
    undisturbed E h s0 (do_step E s).2.
