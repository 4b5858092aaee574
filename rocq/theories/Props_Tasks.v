(** Properties of the evaluation of single tasks: iterators, doWhile tasks, retries. *)
From Verif Require Import Rounds Examples2.
Local Open Scope Z_scope.

(** C15: from a state in which an iterator task has not been evaluated yet, whatever else the flow
    does in between: the calls of its activity see the elements of the value it iterates on one after
    the other, each once, with their index; the evaluation after the last element, and no earlier
    one, finds the task done; an evaluation fails exactly with the error of its call. *)
Theorem C15_iterator : forall E d uri s0 t x lc v l s,
  running E d uri s0 -> s_tis s0 !! t = Some x -> ti_wd x !! "_iterator" = None ->
  t_type (ti_task x) = TIterator -> t_loop (ti_task x) = Some lc -> iterable E v ->
  t_retry (ti_task x) = None -> smooth E (ti_task x) ->
  rounds E t s0 l s ->
  (forall r, l !! 0%nat = Some r -> iterates E t (rd_from r) lc v) ->
  flat_map (fun r => snd <$> calls (ti_inst x) (t_id (ti_task x)) (rd_events r)) l =
    take (length l) (imap (fun k p => Some (WIteration p.1 p.2 (Z.of_nat k))) (elements_of E v)) /\
  (forall k r, l !! k = Some r ->
     match rd_result r with
     | inr EvalDone => (length (elements_of E v) <= k)%nat
     | inl e => outcomes (ti_inst x) (t_id (ti_task x)) (rd_events r) = [Some e]
     | inr EvalRepeat | inr EvalWait =>
         (k < length (elements_of E v))%nat /\ outcomes (ti_inst x) (t_id (ti_task x)) (rd_events r) = [None]
     | inr _ => False
     end).
Proof. exact iterator_visits_all. Qed.
Print Assumptions C15_iterator.

(** C15: with retries and whatever the mappers, interceptors and schemas do: an evaluation calls the
    activity only for its own element; after the last element it calls nothing. *)
Theorem C15_iterator_calls : forall E d uri s0 t x lc v c l s,
  running E d uri s0 -> s_tis s0 !! t = Some x -> ti_wd x !! "_iterator" = None ->
  t_type (ti_task x) = TIterator -> t_loop (ti_task x) = Some lc -> iterable E v ->
  retries_left (ti_task x) (ti_wd x) c ->
  rounds E t s0 l s ->
  (forall r, l !! 0%nat = Some r -> iterates E t (rd_from r) lc v) ->
  forall k r, l !! k = Some r ->
    match elements_of E v !! k with
    | Some p => forall ca, ca ∈ calls (ti_inst x) (t_id (ti_task x)) (rd_events r) -> ca.2 = Some (WIteration p.1 p.2 (Z.of_nat k))
    | None => calls (ti_inst x) (t_id (ti_task x)) (rd_events r) = [] /\ rd_result r = inr EvalDone
    end.
Proof. exact iterator_calls. Qed.
Print Assumptions C15_iterator_calls.

(** C15, C17: a task that is to go on is put at the end of the queue, and the flow stays active. *)
Theorem C15_goes_on : forall E d uri s t x s1,
  running E d uri s -> evaluates E s t x (inr EvalRepeat) s1 ->
  main_status (do_step E s).2 = Some FActive /\ exists q w, s_queue (do_step E s).2 = q ++ [(w, t)].
Proof. exact repeat_queued. Qed.
Print Assumptions C15_goes_on.

(** Both elements, with the task beside it in between; then the task is done. *)
Example C15_example :
  let E := env1 act_ok in
  let s0 := started E iter_flow "u" ∅ in
  let w := walk E 0 5 [] s0 in
  rounds E 0 s0 w.1.1 w.1.2 /\
  (exists x lc, s_tis s0 !! 0%nat = Some x /\ ti_wd x !! "_iterator" = None /\ t_type (ti_task x) = TIterator /\
     t_loop (ti_task x) = Some lc /\ lc_iter lc = Some (IOVal (VArr [VStr "x"; VStr "y"])) /\
     t_retry (ti_task x) = None /\ smooth E (ti_task x)) /\
  rd_result <$> w.1.1 = [inr EvalRepeat; inr EvalRepeat; inr EvalDone] /\
  evaluations w.1.2 = [(0, "a"); (0, "c"); (0, "a"); (0, "b")]%nat.
Proof.
  cbv zeta. split_and!; [apply walk_rounds; [apply rounds_nil|ev]| |ev|ev].
  eexists _, _. split; [ev|]. split_and!; try ev. split_and!; [split_and!; intros; eauto|done|done|]. by intros lc [= <-].
Qed.

(** C17: from a state in which a doWhile task has not been evaluated yet, whatever else the flow does
    in between: if all but the last evaluation let the task go on, the calls of its activity see index
    0, 1, 2, ..., one call for each; the condition was found true for each of them, seeing the same
    index; and the last evaluation goes on if the condition was true, and finds the task done if it
    was false or if there is none. *)
Theorem C17_dowhile : forall E d uri s0 t x l r s,
  running E d uri s0 -> s_tis s0 !! t = Some x -> ti_wd x !! "iteration" = None ->
  t_type (ti_task x) = TDoWhile -> t_retry (ti_task x) = None -> smooth E (ti_task x) ->
  rounds E t s0 (l ++ [r]) s -> (forall r', r' ∈ l -> rd_result r' = inr EvalRepeat) ->
  let i := ti_inst x in let id := t_id (ti_task x) in let n := Z.of_nat (length l) in
  flat_map (fun r => snd <$> calls i id (rd_events r)) (l ++ [r]) = (fun k => Some (WDoWhile k)) <$> seqZ 0 (n + 1) /\
  flat_map (fun r => conditions i id (rd_events r)) l = (fun k => (Some (WDoWhile k), VBool true)) <$> seqZ 0 n /\
  match rd_result r with
  | inr EvalRepeat => conditions i id (rd_events r) = [(Some (WDoWhile n), VBool true)]
  | inr EvalDone =>
      conditions i id (rd_events r) = [(Some (WDoWhile n), VBool false)] \/
      (conditions i id (rd_events r) = [] /\ forall lc, t_loop (ti_task x) = Some lc -> lc_cond lc = None)
  | _ => conditions i id (rd_events r) = []
  end.
Proof. exact dowhile_all. Qed.
Print Assumptions C17_dowhile.

(** The condition holds for index 0 and 1: three rounds. *)
Example C17_example :
  let s0 := started env_dw dw_flow "u" ∅ in
  let w := walk env_dw 0 4 [] s0 in
  rounds env_dw 0 s0 w.1.1 w.1.2 /\
  (exists x, s_tis s0 !! 0%nat = Some x /\ ti_wd x !! "iteration" = None /\ t_type (ti_task x) = TDoWhile /\
     t_retry (ti_task x) = None /\ smooth env_dw (ti_task x)) /\
  rd_result <$> w.1.1 = [inr EvalRepeat; inr EvalRepeat; inr EvalDone].
Proof.
  cbv zeta. split_and!; [apply walk_rounds; [apply rounds_nil|ev]| |ev].
  eexists. split; [ev|]. split_and!; try ev. split_and!; [split_and!; intros; eauto|done|done|]. by intros lc [= <-].
Qed.

(** C18: an evaluation of a task with [c] retries left calls its activity at most 1 + c times; when
    the task was waiting and is evaluated again, at most c times. *)
Theorem C18_retry_bound : forall E d uri s t x r s1 c,
  running E d uri s -> evaluates E s t x r s1 -> retries_left (ti_task x) (ti_wd x) c ->
  Z.of_nat (length (calls (ti_inst x) (t_id (ti_task x)) (happened s s1))) <=
    (if bool_decide (ti_status x = TWaiting) then 0 else 1) + Z.max 0 c.
Proof. exact few_calls. Qed.
Print Assumptions C18_retry_bound.

(** C18: the calls one by one, for a basic task: a retry follows a retriable error only while retries
    are left; the first call that succeeds or cannot be retried decides the result. *)
Theorem C18_retry : forall E d uri s t x r s1 c,
  running E d uri s -> evaluates E s t x r s1 -> ti_status x <> TWaiting -> t_type (ti_task x) = TBasic ->
  retries_left (ti_task x) (ti_wd x) c -> smooth E (ti_task x) ->
  exists r0, retried c (outcomes (ti_inst x) (t_id (ti_task x)) (happened s s1)) r0 /\
    r = match r0 with inl e => inl e | inr true => inr EvalDone | inr false => inr EvalWait end.
Proof. exact basic_calls. Qed.
Print Assumptions C18_retry.

(** C18: what [retried] says about numbers: with an error at the end that could be retried, all
    retries are used up; all calls but the last ended with a retriable error. *)
Theorem C18_retries_used : forall c os r, retried c os r ->
  exists bad o, os = bad ++ [o] /\ (forall e, Some e ∈ bad -> retriable e = true) /\ (None ∉ bad) /\
    Z.of_nat (length bad) <= Z.max 0 c /\
    match o with
    | Some e => r = inl e /\ (retriable e = true -> Z.of_nat (length bad) = Z.max 0 c)
    | None => exists b, r = inr b
    end.
Proof. exact retried_counts. Qed.
Print Assumptions C18_retries_used.

(** Two retries: success at the third call, or the last error. *)
Example C18_example :
  (let s0 := started (env_retry 4) retry_flow "u" ∅ in
   let w := walk (env_retry 4) 0 1 [] s0 in
   rounds (env_retry 4) 0 s0 w.1.1 w.1.2 /\
   (exists x, s_tis s0 !! 0%nat = Some x /\ ti_status x <> TWaiting /\ t_type (ti_task x) = TBasic /\
     retries_left (ti_task x) (ti_wd x) 2 /\ smooth (env_retry 4) (ti_task x)) /\
   (fun r => (length (outcomes 0 "a" (rd_events r)), rd_result r)) <$> w.1.1 = [(3%nat, inr EvalDone)]) /\
  (let w := walk (env_retry 100) 0 1 [] (started (env_retry 100) retry_flow "u" ∅) in
   (fun r => (length (outcomes 0 "a" (rd_events r)), rd_result r)) <$> w.1.1 = [(3%nat, inl (EAct "failed" "42" VNil true "a"))]).
Proof.
  cbv zeta. split; [|ev]. split_and!; [apply walk_rounds; [apply rounds_nil|ev]| |ev].
  eexists. split; [ev|]. split_and!; try ev; try done; [by split; [exists 0|]|].
  split_and!; [split_and!; intros; eauto|done|done|]. by intros lc [= <-].
Qed.
