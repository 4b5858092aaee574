(** Values of tasks in the scope of a flow. *)
From Verif Require Import Isolation Collect Examples4.
Local Open Scope Z_scope.

(** C19: from a state in which attribute "_A.<task>" holds the array [b0] (or is absent: the empty array),
    whatever else the flow does in between: the attribute holds [b0] followed by the outputs of the successful
    evaluations of the task, in order; with none it is unchanged. For a doWhile task, no evaluation failed (its
    condition may fail after the outputs have been collected). *)
Theorem C19_accumulated : forall E d uri s0 t x lc b0 l s,
  e_icpt E = None -> dotless_flow d -> dotless_env E -> ~ scoped E (all_key (t_id (ti_task x))) ->
  running E d uri s0 -> s_tis s0 !! t = Some x -> t_loop (ti_task x) = Some lc -> lc_acc lc = true ->
  (forall a, e_toarr E (VArr a) = Some a) ->
  held E (attr_of s0 (ti_inst x) (all_key (t_id (ti_task x)))) b0 ->
  rounds E t s0 l s ->
  Forall (fun r => t_type (ti_task x) = TDoWhile -> exists z, rd_result r = inr z) l ->
  (forall u x', s_tis s !! u = Some x' -> ti_inst x' = ti_inst x -> t_id (ti_task x') = t_id (ti_task x) -> u = t) ->
  exists os, Forall2 (left_outputs E t) (successes (ti_task x) l) os /\
    let v s := attr_of s (ti_inst x) (all_key (t_id (ti_task x))) in
    (v s = v s0 /\ os = [] \/ v s = Some (VArr (b0 ++ os))).
Proof. intros E d uri s0 t x lc b0 l s NI A B C D F G H I J K L M. exact (rounds_collect E d uri NI s0 t x lc b0 A B C D F G H I J l s K L M). Qed.
Print Assumptions C19_accumulated.

(** Two elements, with the task beside it in between. *)
Example C19_example :
  let E := env_echo in
  let s0 := started E acc_flow "u" ∅ in
  let w := walk E 0 4 [] s0 in
  e_icpt E = None /\ dotless_flow acc_flow /\ dotless_env E /\ ~ scoped E (all_key "a") /\
  (exists x lc, s_tis s0 !! 0%nat = Some x /\ ti_inst x = 0%nat /\ t_id (ti_task x) = "a" /\ t_loop (ti_task x) = Some lc /\ lc_acc lc = true /\
     t_type (ti_task x) = TIterator) /\
  (forall a, e_toarr E (VArr a) = Some a) /\ held E (attr_of s0 0 (all_key "a")) [] /\
  rounds E 0 s0 w.1.1 w.1.2 /\
  (forall u x', s_tis w.1.2 !! u = Some x' -> ti_inst x' = 0%nat -> t_id (ti_task x') = "a" -> u = 0%nat) /\
  attr_of w.1.2 0 (all_key "a") = Some (VArr [VObj [("o", VStr "x")]; VObj [("o", VStr "y")]]).
Proof.
  cbv zeta. split_and!; [done|apply dotless_check; ev|done|by intros (j & v & [Hs|(a & Ha & _)])|eexists _, _; split_and!; ev|done|ev| | |ev].
  - apply walk_rounds; [apply rounds_nil|ev].
  - intros u x' Hu Hi Ha. apply (map_check (s_tis (walk env_echo 0 4 [] (started env_echo acc_flow "u" ∅)).1.2)
      (fun u x => negb (bool_decide (t_id (ti_task x) = "a")) || bool_decide (u = 0%nat))) in Hu; [|ev].
    rewrite Ha in Hu. by apply orb_true_iff in Hu as [Hu|Hu%bool_decide_eq_true].
Qed.

(** C24: output [n] of a successful evaluation of a task stays, under the name of the task and of the output, what that
    evaluation left, as long as the task is not evaluated again; whatever the other tasks of this flow and of other
    flows do. For names of tasks without dots and activities that do not assign the attribute themselves.
    Missing: outputs written when a waiting task is resumed; interceptors; names with dots, for which it is false,
    see [C24_refuted]. *)
Theorem C24_own_outputs_partial : forall E d uri s t x r s1 x1 ac ns n v s',
  e_icpt E = None -> dotless_flow d -> dotless_env E -> ~ scoped E (out_key (t_id (ti_task x)) n) ->
  running E d uri s -> evaluates E s t x r s1 -> ti_status x <> TWaiting -> succeeded (ti_task x) r ->
  (forall lc, t_loop (ti_task x) = Some lc -> lc_acc lc = true -> lc_accapply lc = true) ->
  t_act (ti_task x) = Some ac -> ac_outs ac = Some ns -> n ∈ ns ->
  s_tis s1 !! t = Some x1 -> ti_out x1 !! n = Some v ->
  meanwhile E (ti_inst x) (t_id (ti_task x)) (do_step E s).2 s' ->
  attr_of s' (ti_inst x) (out_key (t_id (ti_task x)) n) = Some v.
Proof. exact own_outputs. Qed.
Print Assumptions C24_own_outputs_partial.

(** The output of the first task of two, after the second one. *)
Example C24_own_outputs_example :
  let E := env1 act_ok in
  let s := started E two_lines "u" ∅ in
  dotless_flow two_lines /\ dotless_env E /\ ~ scoped E (out_key "a" "o") /\
  (exists t x r s1 x1 ac, evaluates E s t x r s1 /\ ti_inst x = 0%nat /\ t_id (ti_task x) = "a" /\ ti_status x <> TWaiting /\
     succeeded (ti_task x) r /\ t_loop (ti_task x) = None /\ t_act (ti_task x) = Some ac /\ ac_outs ac = Some ["o"] /\
     s_tis s1 !! t = Some x1 /\ ti_out x1 !! "o" = Some (VStr "a")) /\
  meanwhile E 0 "a" (do_step E s).2 (after E 3 (do_step E s).2) /\
  evaluations (after E 3 (do_step E s).2) = [(0, "a"); (0, "b"); (0, "c"); (0, "d")]%nat.
Proof.
  cbv zeta. split_and!; [apply dotless_check; ev|done|by apply env1_unscoped; intros n v []| |apply idle_meanwhile; [constructor|ev]|ev].
  set (E := env1 act_ok). set (s := started _ _ _ _).
  destruct (eval_check E s (fun t x r s1 => bool_decide (r = inr EvalDone /\ ti_inst x = 0%nat /\ t_id (ti_task x) = "a" /\ ti_status x <> TWaiting /\
    t_type (ti_task x) = TBasic /\ t_loop (ti_task x) = None /\ (ac_outs <$> t_act (ti_task x)) = Some (Some ["o"]) /\
    (s_tis s1 !! t ≫= fun x1 => ti_out x1 !! "o") = Some (VStr "a")))) as (t & x & r & s1 & Ev & H); [ev|].
  apply bool_decide_eq_true in H as (-> & H1 & H2 & H3 & H4 & H5 & H6 & H7).
  destruct (t_act (ti_task x)) as [ac|] eqn:Hac; [|done]. injection H6 as H6. destruct (s_tis s1 !! t) as [x1|] eqn:Hx1; [|done].
  exists t, x, (inr EvalDone), s1, x1, ac. split_and!; try assumption. unfold succeeded. by rewrite H4.
Qed.

(** C24: for task ids without dots, the names of outputs, of collected outputs, of errors and of the flow context are
    all different.
    Missing: names with dots, for which it is false, see [C24_refuted]. *)
Theorem C24_names_partial : forall a b, dotless a -> dotless b ->
  (forall n m, out_key a n = out_key b m -> a = b /\ n = m) /\
  (forall n, all_key a <> out_key b n) /\
  (all_key a = all_key b -> a = b) /\
  (forall n, ~ error_name (out_key a n) /\ ~ context_name (out_key a n)) /\
  ~ error_name (all_key a) /\ ~ context_name (all_key a) /\
  (forall k, error_name k -> ~ context_name k).
Proof. exact names_differ. Qed.
Print Assumptions C24_names_partial.
Example C24_names_example : dotless "a" /\ dotless "b" /\ out_key "a" "o.p" = "_A.a.o.p" /\ all_key "b" = "_A.b".
Proof. split_and!; [by apply no_dot_ok|by apply no_dot_ok|done|done]. Qed.
