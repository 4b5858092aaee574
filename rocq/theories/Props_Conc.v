(** Properties of concurrent execution: any interleaving of the goroutines that run the tasks. *)
From Verif Require Import ConcProofs Locks Examples6.
Local Open Scope Z_scope.

(** C34: with concurrent execution, whatever the definition, the activities and the interleaving of the goroutines: among
    the work items taken from the queue so far and those in the queue, each task instance occurs at most once, unless it
    has started a subflow (then it is resumed when the subflow ends) or its task is a loop (then it schedules itself). *)
Theorem C34_scheduled_once : forall E d uri ins chs t,
  e_conc E = true ->
  let c := conc_run E chs (conc_start E d uri ins) in
  ~ hosting (c_st c) t -> ~ looping (c_st c) t -> (times t (c_taken c ++ s_queue (c_st c)) <= 1)%nat.
Proof. intros E d uri ins chs t Hc. exact (scheduled_once E Hc d uri ins chs t). Qed.
Print Assumptions C34_scheduled_once.

(** Both branches enter the join, one after the other has put it into the queue; it is scheduled once, and all is done. *)
Example C34_scheduled_once_example :
  let c := conc_run env_conc early_enter (conc_start env_conc join_flow "u" ∅) in
  e_conc env_conc = true /\ (forall t, ~ hosting (c_st c) t /\ ~ looping (c_st c) t) /\
  quiescent c /\ main_status (c_st c) = Some FCompleted /\
  evaluations (c_st c) = [(0, "a"); (0, "b"); (0, "c"); (0, "d"); (0, "e")]%nat /\
  (c_taken c).*2 = [0; 1; 2; 3; 4]%nat.
Proof.
  cbv zeta. split; [done|]. set (c := conc_run _ _ _). split.
  - apply no_exempt_check. ev.
  - split; [apply quiescent_check; ev|]. split_and!; ev.
Qed.

(** C34: a join can be left behind. Two branches have both decided their links into the join; the first one schedules it,
    it runs and is released before the second one enters it. The second one then creates a new instance of the join that
    nothing will ever schedule: all goroutines have ended, the queue is empty, and the flow stays active forever. In another
    interleaving the same flow completes. *)
Theorem C34_refuted :
  exists E d uri ins chs, built d /\ acyclic d /\ no_parallel d /\ plain_tasks d /\ d_eh d = None /\
    sync_env true E /\ links_ok E /\ settings_ok E /\ mappers_ok E /\ e_icpt E = None /\ e_conc E = true /\
    (let c := conc_run E chs (conc_start E d uri ins) in
     quiescent c /\ (forall chs', conc_run E chs' c = c) /\ main_status (c_st c) = Some FActive /\
     evaluations (c_st c) = [(0, "a"); (0, "b"); (0, "c"); (0, "d"); (0, "e")]%nat /\
     exists y t x, s_insts (c_st c) !! 0%nat = Some y /\ i_tasks y !! "d" = Some t /\
       s_tis (c_st c) !! t = Some x /\ ti_status x = TEntered) /\
    (exists chs', let c' := conc_run E chs' (conc_start E d uri ins) in
     quiescent c' /\ main_status (c_st c') = Some FCompleted /\
     evaluations (c_st c') = [(0, "a"); (0, "b"); (0, "c"); (0, "d"); (0, "e")]%nat).
Proof. exact join_left_behind. Qed.
Print Assumptions C34_refuted.

(** C34: the interleavings include the sequential runs: as long as the flow is active and there is work, doing all pieces of
    one task after the other is what the steps of the flow do. *)
Theorem C34_sequential : forall E d uri ins n,
  e_conc E = true ->
  (forall k, (k < n)%nat -> main_status (after E k (started E d uri ins)) = Some FActive /\ s_queue (after E k (started E d uri ins)) <> []) ->
  exists chs, c_st (conc_run E chs (conc_start E d uri ins)) = after E n (started E d uri ins).
Proof. exact sequential_runs. Qed.
Print Assumptions C34_sequential.

(** Five steps of the flow with a join. *)
Example C34_sequential_example :
  e_conc env_conc = true /\
  (forall k, (k < 5)%nat -> main_status (after env_conc k (started env_conc join_flow "u" ∅)) = Some FActive /\
     s_queue (after env_conc k (started env_conc join_flow "u" ∅)) <> []) /\
  main_status (after env_conc 5 (started env_conc join_flow "u" ∅)) = Some FCompleted.
Proof.
  split; [done|]. split; [|ev]. intros k Hk.
  do 5 (destruct k as [|k]; [split; [ev|ne]|]). lia.
Qed.

(** C33: a goroutine waits for a lock it holds itself only after a task was skipped: in every interleaving of every flow, with
    all kinds of activities, errors and subflows, a flow none of whose tasks is skipped never blocks. (That skipping a task
    can block is [C33_refuted].) *)
Theorem C33_only_skips_block : forall E d uri ins chs,
  let c := conc_run E chs (conc_start E d uri ins) in
  ThStuck ∈ c_threads c -> exists i id, EvTaskUpd i id TSkipped ∈ trace (c_st c).
Proof. exact only_skips_block. Qed.
Print Assumptions C33_only_skips_block.

(** The first link of a is not followed: the goroutine of a skips b and waits for ever, while c is executed. *)
Example C33_only_skips_block_example :
  let c := conc_run env_conc ([Loop] ++ all4 0 ++ [Loop; Go 0] ++ all4 1) (conc_start env_conc skip_flow "u" ∅) in
  c_threads c = [ThStuck; ThEnd] /\ evaluations (c_st c) = [(0, "a"); (0, "c")]%nat /\
  EvTaskUpd 0 "b" TSkipped ∈ trace (c_st c).
Proof. cbv zeta. split; [ev|]. split; [ev|]. apply elem_of_list_lookup. exists 28%nat. ev. Qed.
(** No task is skipped and nothing is stuck. *)
Example C33_only_skips_block_example2 :
  let c := conc_run env_conc early_enter (conc_start env_conc join_flow "u" ∅) in
  c_threads c = [ThEnd; ThEnd; ThEnd; ThEnd; ThEnd].
Proof. cbv zeta. ev. Qed.
