(** Property theorems: loops whose activity waits. Contains nothing else. *)
From Verif Require Import LoopWait Examples12.
Local Open Scope Z_scope.

(** C16: whenever an iterator or a doWhile whose activity waited is evaluated again and asks for another round, its task is marked done and queued
    last. *)
Theorem C16_repeat : forall E s t x s1,
  evaluates E s t x (inr EvalRepeat) s1 -> ti_status x = TWaiting -> t_type (ti_task x) <> TBasic ->
  (exists x', s_tis (do_step E s).2 !! t = Some x' /\ ti_status x' = TDone) /\
  exists w, s_queue (do_step E s).2 = s_queue s1 ++ [(w, t)].
Proof. exact waited_queued. Qed.
Print Assumptions C16_repeat.

(** C16: a task found done when its turn comes is not evaluated: the step removes it from the queue and does nothing else. *)
Theorem C16_not_evaluated : forall E s w t q x,
  main_status s = Some FActive -> s_queue s = (w, t) :: q -> s_tis s !! t = Some x -> ti_status x = TDone ->
  (do_step E s).1 = Ok true /\ s_queue (do_step E s).2 = q /\ s_tis (do_step E s).2 = s_tis s /\ s_insts (do_step E s).2 = s_insts s /\
  evaluations (do_step E s).2 = evaluations s /\ main_status (do_step E s).2 = Some FActive.
Proof. exact done_skipped. Qed.
Print Assumptions C16_not_evaluated.

(** C16: if nothing else is queued then, the loop never makes another round, no task is evaluated any more, and the flow stays active for ever. *)
Theorem C16_stalls : forall E d uri s t x s1,
  running E d uri s -> evaluates E s t x (inr EvalRepeat) s1 -> ti_status x = TWaiting -> t_type (ti_task x) <> TBasic -> s_queue s1 = [] ->
  forall n, main_status (after E n (do_step E s).2) = Some FActive /\ evaluations (after E n (do_step E s).2) = evaluations s1.
Proof. exact loop_stalls. Qed.
Print Assumptions C16_stalls.

(** An iterator over two elements and a doWhile, each over a subflow, when the subflow has ended. *)
Example C16_stalls_example :
  forall d, d = iter_sub \/ d = dw_sub ->
  let s := after env_sub 2 (started env_sub d "u" ∅) in
  running env_sub d "u" s /\
  exists t x s1, evaluates env_sub s t x (inr EvalRepeat) s1 /\ ti_status x = TWaiting /\ t_type (ti_task x) <> TBasic /\ t_id (ti_task x) = "a" /\ s_queue s1 = [].
Proof.
  intros d Hd. cbv zeta. set (s := after _ _ _). split; [apply started_running|].
  destruct (eval_check env_sub s (fun t x r s1 => bool_decide (ti_status x = TWaiting /\ t_id (ti_task x) = "a") && (match r with inr EvalRepeat => true | _ => false end) &&
    (match t_type (ti_task x) with TBasic => false | _ => true end) && (match s_queue s1 with [] => true | _ => false end))) as (t & x & r & s1 & P & H).
  { destruct Hd as [-> | ->]; ev. }
  apply andb_prop in H as [H Hq]. apply andb_prop in H as [H Ht]. apply andb_prop in H as [H Hr]. apply bool_decide_eq_true in H as (H1 & H2).
  destruct r as [|[]]; try done. destruct (s_queue s1) eqn:Hs1; [|done]. exists t, x, s1. split; [done|]. split; [done|]. split; [by intros Hb; rewrite Hb in Ht|]. by split.
Qed.
(** One step later the task is in the queue, done. *)
Example C16_not_evaluated_example :
  forall d, d = iter_sub \/ d = dw_sub ->
  let s := after env_sub 3 (started env_sub d "u" ∅) in
  main_status s = Some FActive /\ exists w t q x, s_queue s = (w, t) :: q /\ s_tis s !! t = Some x /\ ti_status x = TDone.
Proof.
  intros d Hd. cbv zeta. split; [destruct Hd as [-> | ->]; ev|]. set (s := after _ _ _).
  assert (match s_queue s with (_, t) :: _ => match s_tis s !! t with Some x => bool_decide (ti_status x = TDone) | None => false end | [] => false end = true) as H
    by (destruct Hd as [-> | ->]; ev).
  destruct (s_queue s) as [|[w t] q] eqn:Hq; [done|]. destruct (s_tis s !! t) as [x|] eqn:Hx; [|done]. apply bool_decide_eq_true in H. exists w, t, q, x. by split_and!.
Qed.
