(** Test data and checks for the examples beside the properties of subflows. *)
From Verif Require Export Subflows Examples4.
Local Open Scope Z_scope.

(** A task that starts a subflow, and two other tasks one after the other (test data). *)
Definition host_flow : defn := flow_of "f" [tr "a"; tr "c"; tr "d"; tr "b"] [ldep "a" "b"; ldep "c" "d"] None None.
(** The task "x" of the subflow returns an output that its host declares (test data). *)
Definition env_sub_out : env := set_e_act (fun n v =>
  if bool_decide (v_task v = "x") then AReturn (Some {["o" := VInt 5]}) None (AEnd ADone) else sub_act ["a"] n v) env_sub.
(** The task "x" of the subflow fails (test data). *)
Definition env_sub_err : env := set_e_act (fun n v =>
  if bool_decide (v_task v = "x") then AEnd (AErr (EOther "x")) else sub_act ["a"] n v) env_sub.
(** A link with an expression that cannot be evaluated beside another one (test data). *)
Definition broken_flow (eh : option (list task_rep * list link_rep)) : defn :=
  flow_of "f" [tr "a"; tr "b"; tr "c"; tr "e"] [lexpr "a" "b" "true"; lexpr "a" "c" "err"] eh None.

(** The next [n] steps are not with [h] or with a task of a flow that [h] has started (a check). *)
Fixpoint calm_steps (E : env) (h : nat) (n : nat) (s : st) : bool :=
  match n with
  | O => true
  | S n' =>
      match s_queue s with
      | [] => true
      | (_, t) :: _ => negb (bool_decide (t = h)) && match s_tis s !! t with
          | Some x => match s_insts s !! ti_inst x with Some y => negb (bool_decide (i_host y = Some h)) | None => true end
          | None => true end
      end && calm_steps E h n' (do_step E s).2
  end.
Lemma calm_undisturbed E h n s0 s : undisturbed E h s0 s -> calm_steps E h n s = true -> undisturbed E h s0 (after E n s).
Proof.
  revert s. induction n as [|n IH]; intros s H; cbn [calm_steps after]; [done|]. intros [H1 H2]%andb_true_iff.
  apply IH; [|done]. apply ud_step; [done|]. intros w t q x y Hq Hx Hy. rewrite Hq, Hx, Hy in H1. apply andb_true_iff in H1 as [A B].
  apply negb_true_iff, bool_decide_eq_false in A. apply negb_true_iff, bool_decide_eq_false in B. done.
Qed.
Lemma broken_check a ls :
  existsb (fun l => bool_decide (l_type l = LtExpression /\ l_expr l = Some "err")) ls = true -> exists l, l ∈ ls /\ broken (env0 a) l.
Proof.
  intros (l & Hl & [H1 H2]%bool_decide_eq_true)%existsb_exists. exists l. split; [by apply elem_of_list_In|].
  split_and!; [done|congruence|]. intros n v. cbn. rewrite H2. eauto.
Qed.
(** A subflow with an error handler, in which "x" fails beside "y" (test data). *)
Definition eh_sub : defn := flow_of "g" [tr "x"; tr "y"] [] (Some ([tr "h1"; tr "h2"; tr "h3"], [ldep "h1" "h3"])) None.
Definition env_sub_eh : env := set_e_def (fun _ _ => DOk eh_sub) env_sub_err.
