(** Properties of recorded steps, snapshots, saved and restarted instances. *)
From Verif Require Import RecordLemmas Findings3.
Local Open Scope Z_scope.

(** ** C26: saving and loading *)

(** C26: as long as every queued work item belongs to the main flow or to a live subflow, loading what was
    written gives the same id, main flow, subflows and work items (id, task and subflow, each with a task instance
    exactly if the task is registered in its flow); new subflow ids are above the existing ones. Go
    may write the entries of maps in any order; [js] is what JSON makes of attribute values.
    Missing: states in which a work item is left of a subflow that has ended (see the next two). *)
Theorem C26_reloaded_partial : forall E d uri js s id v v',
  visited E d uri s -> saves id s v -> json_saved js v = Some v' ->
  (forall w, w ∈ items s -> live_item s w) ->
  exists l, unmarshal v' = Ok l /\ ld_id l = id /\ flow_kept js s 0 (ld_main l) /\
    dom (ld_subs l) = s_subs s /\ (forall i f, ld_subs l !! i = Some f -> flow_kept js s i f) /\
    fst <$> ld_queue l = items s /\
    (forall w b, (w, b) ∈ ld_queue l -> b = true <->
      exists y, s_insts s !! w.2 = Some y /\ is_Some (i_tasks y !! w.1.2 ≫= fun t => s_tis s !! t)) /\
    (forall i, i ∈ s_subs s -> (i <= ld_sfctr l)%nat).
Proof. exact seen_reloaded. Qed.
Print Assumptions C26_reloaded_partial.
(** A live subflow with a queued task, and a task of the main flow that waits for it. *)
Definition s26 : st := after env_sub 1 (started env_sub caller "u" ∅).
Example C26_example : visited env_sub caller "u" s26 /\ saves "i" s26 (written s26) /\
  json_saved Some (written s26) = Some (written s26) /\ items s26 = [(2, "x", 1)]%nat /\
  (forall w, w ∈ items s26 -> live_item s26 w) /\ elements (s_subs s26) = [1%nat] /\
  sf_tasks (sv_main (written s26)) = [("a", TWaiting)].
Proof.
  split; [apply visited_after|]. split; [apply saves_written, is_some_check; ev|]. split; [ev|].
  assert (items s26 = [(2, "x", 1)]%nat) as Hi by ev. split; [exact Hi|]. split; [|split; ev].
  intros w Hw. rewrite Hi in Hw. apply elem_of_list_singleton in Hw as ->. right. apply elem_of_elements. change (1%nat ∈ elements (s_subs s26)).
  assert (elements (s_subs s26) = [1%nat]) as -> by ev. apply elem_of_list_here.
Qed.

(** C26: a queued work item of a subflow that is no longer live makes loading panic. *)
Theorem C26_lost_item : forall E d uri js s id v v' w,
  visited E d uri s -> saves id s v -> json_saved js v = Some v' -> w ∈ items s -> ~ live_item s w ->
  unmarshal v' = Panic "nil subflow".
Proof. exact seen_lost. Qed.
Print Assumptions C26_lost_item.

(** C26 does not hold for all states: a subflow with two start tasks of which the first returns. *)
Theorem C26_refuted : exists E d uri s js id v v',
  built d /\ built_env E /\ visited E d uri s /\ saves id s v /\ json_saved js v = Some v' /\ unmarshal v' = Panic "nil subflow".
Proof. exact reload_panics. Qed.
Print Assumptions C26_refuted.

(** ** C27: restarting *)

(** C27: if all work items belong to registered tasks of the main flow, every task has an activity and the restart
    is from the beginning ([init] <= 0) or there are at most two work items, then a restart from a saved instance succeeds,
    keeps the work items in order, the links and their statuses, the set of registered tasks and their statuses, except that
    (if [init] > 0) the queued tasks are ready; attributes are what JSON makes of them; the flow is active.
    Missing: longer queues, subflows, new ids and the handling of errors (refuted below). *)
Theorem C27_restart_partial : forall E d uri js s id v v' init,
  visited E d uri s -> (forall tk, tk ∈ all_tasks d -> t_act tk <> None) ->
  saves id s v -> json_saved js v = Some v' ->
  (forall w, w ∈ items s -> w.2 = 0%nat /\ exists y, s_insts s !! 0%nat = Some y /\ is_Some (i_tasks y !! w.1.2)) ->
  init <= 0 \/ (length (items s) <= 2)%nat ->
  exists l s' y y', unmarshal v' = Ok l /\ restart E (DOk d) init l = (Ok None, Some s') /\
    s_insts s !! 0%nat = Some y /\ s_insts s' !! 0%nat = Some y' /\ items s' = items s /\
    i_status y' = FActive /\ i_uri y' = i_uri y /\ i_links y' = i_links y /\ (forall k, i_attrs y' !! k = i_attrs y !! k ≫= js) /\
    (forall n, is_Some (i_tasks y' !! n) <-> is_Some (i_tasks y !! n)) /\
    (forall n t x, i_tasks y !! n = Some t -> s_tis s !! t = Some x -> init <= 0 \/ n ∉ (items s).*1.*2 ->
      exists t' x', i_tasks y' !! n = Some t' /\ s_tis s' !! t' = Some x' /\ ti_status x' = ti_status x) /\
    (forall n, 0 < init -> n ∈ (items s).*1.*2 -> exists t' x', i_tasks y' !! n = Some t' /\ s_tis s' !! t' = Some x' /\ ti_status x' = TReady).
Proof. exact seen_restarts. Qed.
Print Assumptions C27_restart_partial.
(** Two tasks are queued and one link has been followed. *)
Definition s27 : st := after (env1 act_ok) 1 (started (env1 act_ok) two_lines "u" ∅).
Example C27_example : visited (env1 act_ok) two_lines "u" s27 /\ (forall tk, tk ∈ all_tasks two_lines -> t_act tk <> None) /\
  saves "i" s27 (written s27) /\ json_saved Some (written s27) = Some (written s27) /\
  items s27 = [(2, "b", 0); (3, "c", 0)]%nat /\
  (forall w, w ∈ items s27 -> w.2 = 0%nat /\ exists y, s_insts s27 !! 0%nat = Some y /\ is_Some (i_tasks y !! w.1.2)) /\
  sf_links (sv_main (written s27)) = [(0%nat, LTrue)].
Proof.
  split; [apply visited_after|]. split.
  { intros tk Htk. assert (forallb (fun tk => match t_act tk with Some _ => true | None => false end) (all_tasks two_lines) = true) as H by ev.
    rewrite forallb_forall in H. apply elem_of_list_In in Htk. specialize (H tk Htk). by destruct (t_act tk). }
  split; [apply saves_written, is_some_check; ev|]. split; [ev|].
  assert (items s27 = [(2, "b", 0); (3, "c", 0)]%nat) as Hi by ev. split; [exact Hi|]. split; [|ev].
  intros w Hw. rewrite Hi in Hw.
  assert (exists y, s_insts s27 !! 0%nat = Some y /\ (is_Some (i_tasks y !! "b") /\ is_Some (i_tasks y !! "c"))) as (y & Hy & Hb & Hc).
  { apply (some_check (fun y => is_Some (i_tasks y !! "b") /\ is_Some (i_tasks y !! "c"))). ev. }
  apply elem_of_cons in Hw as [->|Hw%elem_of_list_singleton]; [|subst w]; (split; [done|]); exists y; by split.
Qed.

(** C27 does not hold in general. The order of three queued tasks changes, *)
Theorem C27_order_refuted : exists E d uri s js id v v' l s',
  built d /\ visited E d uri s /\ saves id s v /\ json_saved js v = Some v' /\
  unmarshal v' = Ok l /\ restart E (DOk d) 1 l = (Ok None, Some s') /\
  items s = [(1, "a", 0); (2, "b", 0); (3, "c", 0)]%nat /\ items s' = [(3, "c", 0); (1, "a", 0); (2, "b", 0)]%nat.
Proof. exact restart_shuffles. Qed.
Print Assumptions C27_order_refuted.
(** one step after a restart two queued work items have the same id, *)
Theorem C27_ids_refuted : exists E d uri s js id v v' l s',
  built d /\ visited E d uri s /\ saves id s v /\ json_saved js v = Some v' /\
  unmarshal v' = Ok l /\ restart E (DOk d) 0 l = (Ok None, Some s') /\
  items (after E 1 s') = [(2, "b", 0); (3, "c", 0); (1, "d", 0); (2, "e", 0)]%nat.
Proof. exact restart_same_ids. Qed.
Print Assumptions C27_ids_refuted.
(** an error in the error handler, which ends the flow without a restart, starts the error handler again after a restart, *)
Theorem C27_handling_refuted : exists E d uri s js id v v' l s',
  built d /\ visited E d uri s /\ saves id s v /\ json_saved js v = Some v' /\
  unmarshal v' = Ok l /\ restart E (DOk d) 0 l = (Ok None, Some s') /\ items s' = items s /\
  main_status (after E 1 s) = Some FFailed /\
  main_status (after E 1 s') = Some FActive /\ (fun w => w.1.2) <$> items (after E 1 s') = (fun w => w.1.2) <$> items s.
Proof. exact restart_handles_again. Qed.
Print Assumptions C27_handling_refuted.
(** and a queued task of a subflow makes the restart panic. *)
Theorem C27_subflow_refuted : exists E d uri s js id v v' l,
  built d /\ built_env E /\ visited E d uri s /\ saves id s v /\ json_saved js v = Some v' /\
  unmarshal v' = Ok l /\ (restart E (DOk d) 1 l).1 = Panic "nil task instance".
Proof. exact restart_panics. Qed.
Print Assumptions C27_subflow_refuted.

(** ** C28: replaying the recorded steps *)

(** C28: at every point, the recorded steps and the changes collected since the last one replay to the live
    state: statuses of all flows, registered tasks and known links with their statuses. Needed: nothing has been
    reported of a task or link after its removal, no error handler has emptied the task table, no step has been dropped
    (a restart does), and every status given to a link has been reported. *)
Theorem C28_replay_partial : forall E d uri db s,
  visited E d uri s -> in_order (s_log s) -> links_reported s ->
  replay (recorded db 0 uri s ++ [tk_step (tracked db 0 uri (s_log s)).1]) = live s.
Proof. exact seen_replays. Qed.
Print Assumptions C28_replay_partial.
(** C28: right after a step has been recorded, the recorded steps alone do. *)
Theorem C28_recorded_partial : forall E d uri db s r,
  visited E d uri s -> s_log s = EvStep :: r -> in_order (s_log s) -> links_reported s ->
  replay (recorded db 0 uri s) = live s.
Proof. exact seen_recorded. Qed.
Print Assumptions C28_recorded_partial.
(** A fork in which one branch has been skipped; and a live subflow. *)
Definition s28 : st := at_lap (rec_env RMStep (env1 act_ok)) diamond 2.
Definition s28' : st := at_lap (rec_env RMFull env_sub) caller 1.
Example C28_example :
  (visited (rec_env RMStep (env1 act_ok)) diamond "u" s28 /\ (exists r, s_log s28 = EvStep :: r) /\ in_order (s_log s28) /\ links_reported s28 /\
   length (recorded false 0 "u" s28) = 3%nat) /\
  (visited (rec_env RMFull env_sub) caller "u" s28' /\ (exists r, s_log s28' = EvStep :: r) /\ in_order (s_log s28') /\ links_reported s28' /\
   length (recorded false 0 "u" s28') = 2%nat).
Proof.
  split.
  - split; [apply at_lap_visited; ev|]. split; [exists (tail (s_log s28)); ev|]. split; [apply in_order_check; ev|]. split; [apply reported_check; ev|ev].
  - split; [apply at_lap_visited; ev|]. split; [exists (tail (s_log s28')); ev|]. split; [apply in_order_check; ev|]. split; [apply reported_check; ev|ev].
Qed.
(** C28 does not hold in general: the tasks an error handler throws away are not reported as removed. *)
Theorem C28_refuted : exists E d uri s,
  built d /\ acyclic d /\ visited E d uri s /\ (exists r, s_log s = EvStep :: r) /\ links_reported s /\
  (exists v, replay (recorded false 0 uri s) !! 0%nat = Some v /\ is_Some (fv_tasks v !! "a")) /\
  (exists v, live s !! 0%nat = Some v /\ fv_tasks v !! "a" = None).
Proof. exact clear_not_recorded. Qed.
Print Assumptions C28_refuted.

(** ** C29: snapshots made from steps *)

(** C29: if only the main flow changes in the steps, the snapshot shows the last status of the flow that is not
    0, for every task and link ever reported the last reported status that is not 0, of every attribute the FIRST
    reported value, and no subflow. *)
Theorem C29_steps_to_snapshot : forall fo qo, (forall m, fo m ≡ₚ (map_to_list m).*2) ->
  forall ps, main_only ps ->
  let sn := steps_to_snapshot fo qo ps in
  let cs := main_changes ps in
  sb_status (sn_base sn) = last_nonzero (fc_status <$> cs) /\
  (forall id, sb_tasks (sn_base sn) !! id = reported (task_reports cs id)) /\
  (forall n, sb_links (sn_base sn) !! n = reported (link_reports cs n)) /\
  (forall k, sb_attrs (sn_base sn) !! k = head (attr_reports cs k)) /\
  sn_subs sn = [].
Proof. exact snapshot_of_changes. Qed.
Print Assumptions C29_steps_to_snapshot.
(** C29: of a run without subflows, right after a step has been recorded, the snapshot shows the status of the flow and
    the statuses of all registered tasks and known links as they are (if not 0). Missing: removed tasks and
    links are shown too, attributes may be outdated, the queue. *)
Theorem C29_latest_partial : forall E d uri fo qo db s y r,
  (forall m, fo m ≡ₚ (map_to_list m).*2) ->
  visited E d uri s -> s_log s = EvStep :: r -> in_order (s_log s) -> links_reported s ->
  dom (s_insts s) = {[ 0%nat ]} -> s_insts s !! 0%nat = Some y ->
  let sn := steps_to_snapshot fo qo (recorded db 0 uri s) in
  (i_status y <> 0 -> sb_status (sn_base sn) = i_status y) /\
  (forall id t x, i_tasks y !! id = Some t -> s_tis s !! t = Some x -> ti_status x <> 0 ->
     sb_tasks (sn_base sn) !! id = Some (ti_status x)) /\
  (forall n z, i_links y !! n = Some z -> z <> 0 -> sb_links (sn_base sn) !! n = Some z).
Proof. exact seen_snapshot. Qed.
Print Assumptions C29_latest_partial.
Example C29_example :
  (forall m, fo1 m ≡ₚ (map_to_list m).*2) /\ dom (s_insts s28) = {[ 0%nat ]} /\ main_only (recorded false 0 "u" s28) /\
  map_to_list (sb_tasks (sn_base (steps_to_snapshot fo1 qo1 (recorded false 0 "u" s28)))) ≡ₚ
    [("a", TDone); ("b", TDone); ("c", TSkipped); ("d", TReady)].
Proof.
  assert (dom (s_insts s28) = {[ 0%nat ]}) as Hd by (apply dom_check; ev).
  split; [done|]. split; [exact Hd|]. split.
  - destruct (visited_reach (rec_env RMStep (env1 act_ok)) diamond "u" s28) as [c R]; [apply at_lap_visited; ev|].
    exact (recorded_main_only _ _ _ false _ c R Hd).
  - apply (bool_decide_eq_true_1 _). ev.
Qed.
(** C29 does not hold: the snapshot shows an older value of an attribute and a task that no longer exists. *)
Theorem C29_refuted : exists E d uri s y,
  built d /\ acyclic d /\ visited E d uri s /\ (exists r, s_log s = EvStep :: r) /\
  in_order (s_log s) /\ links_reported s /\ s_insts s !! 0%nat = Some y /\ i_attrs y !! "n" = Some (VStr "b") /\ i_tasks y !! "a" = None /\
  forall fo qo, (forall m, fo m ≡ₚ (map_to_list m).*2) ->
    sb_attrs (sn_base (steps_to_snapshot fo qo (recorded false 0 uri s))) !! "n" = Some (VStr "a") /\
    sb_tasks (sn_base (steps_to_snapshot fo qo (recorded false 0 uri s))) !! "a" = Some TDone.
Proof. exact snapshot_old_values. Qed.
Print Assumptions C29_refuted.

(** ** C30: snapshots of an instance *)

(** C30: the snapshot recorded in a round of the loop shows the main flow as it is after the round: uri,
    status, attributes, tasks and links with their statuses. Missing: subflows and queue. *)
Theorem C30_main_flow_partial : forall E d uri s m b,
  running E d uri s -> e_ext E = true -> e_rec E = Some m -> record_snapshot m = true -> (lap E s).1 = Ok b ->
  exists sn l y, s_log (lap E s).2 = (if record_steps m then [EvStep] else []) ++ EvSnapshot sn :: l /\
    s_insts (lap E s).2 !! 0%nat = Some y /\
    sb_uri (sn_base sn) = i_uri y /\ sb_status (sn_base sn) = i_status y /\ sb_attrs (sn_base sn) = i_attrs y /\
    (forall id, sb_tasks (sn_base sn) !! id = i_tasks y !! id ≫= fun t => ti_status <$> s_tis (lap E s).2 !! t) /\
    sb_links (sn_base sn) = i_links y.
Proof. exact lap_snapshot. Qed.
Print Assumptions C30_main_flow_partial.
Example C30_example : running (rec_env RMFull env_sub) caller "u" s28' /\ e_ext (rec_env RMFull env_sub) = true /\
  e_rec (rec_env RMFull env_sub) = Some RMFull /\ record_snapshot RMFull = true /\ (lap (rec_env RMFull env_sub) s28').1 = Ok true.
Proof. split; [|split_and!; ev]. apply laps_running. constructor. ev. Qed.
(** C30 does not hold: with a live subflow and a queued task, the snapshot (and the one made from the steps) has
    no subflow, and no queue. *)
Theorem C30_refuted : exists E d uri s sn r,
  built d /\ built_env E /\ visited E d uri s /\ s_log s = EvStep :: EvSnapshot sn :: r /\
  items s = [(2, "x", 1)]%nat /\ elements (s_subs s) = [1%nat] /\ sn_subs sn = [] /\ sn_queue sn = [] /\
  forall fo qo, sn_subs (steps_to_snapshot fo qo (recorded false 0 uri s)) = [].
Proof. exact snapshot_lacks. Qed.
Print Assumptions C30_refuted.

(** ** C41: one step per step *)

(** C41: with step recording, each round of the loop records one step at its end, and before that at most as many
    as subflows fail in the round. *)
Theorem C41_step_per_round : forall E d uri s m b,
  running E d uri s -> e_ext E = true -> e_rec E = Some m -> record_steps m = true -> (lap E s).1 = Ok b ->
  exists l, s_log (lap E s).2 = EvStep :: l ++ s_log s /\ (steps_in l <= subflow_failures l)%nat.
Proof. exact seen_lap_steps. Qed.
Print Assumptions C41_step_per_round.
(** C41: in [n] rounds, [n] steps plus at most one per failure of a subflow. *)
Theorem C41_steps_of_run : forall E d uri n s m,
  running E d uri s -> e_ext E = true -> e_rec E = Some m -> record_steps m = true ->
  (forall k, (k < n)%nat -> exists b, (lap E (laps E k s)).1 = Ok b) ->
  exists l, s_log (laps E n s) = l ++ s_log s /\ (n <= steps_in l <= n + subflow_failures l)%nat.
Proof. exact seen_laps_steps. Qed.
Print Assumptions C41_steps_of_run.
(** C41: the recorded steps have consecutive ids from 0. *)
Theorem C41_step_ids : forall db uri s, EvSkipStep ∉ s_log s -> sp_id <$> recorded db 0 uri s = seq 0 (steps_in (s_log s)).
Proof. exact recorded_ids. Qed.
Print Assumptions C41_step_ids.
Definition s41 : st := at_lap (rec_env RMStep (env1 act_ok)) diamond 0.
Example C41_example : running (rec_env RMStep (env1 act_ok)) diamond "u" s41 /\
  (forall k, (k < 3)%nat -> exists b, (lap (rec_env RMStep (env1 act_ok)) (laps (rec_env RMStep (env1 act_ok)) k s41)).1 = Ok b) /\
  EvSkipStep ∉ s_log s28 /\ sp_id <$> recorded false 0 "u" s28 = [0; 1; 2]%nat.
Proof.
  split; [apply laps_running; constructor; ev|]. split.
  - intros k Hk. destruct k as [|[|[|k]]]; [exists true; ev..|lia].
  - split; [|ev]. intros Hin. assert (in_order (s_log s28)) as Ho by (apply in_order_check; ev).
    revert Ho Hin. generalize (s_log s28). induction l as [|e l IH]; intros Ho Hin; [by apply elem_of_nil in Hin|].
    destruct Ho as [Ho He]. apply elem_of_cons in Hin as [<-|Hin]; [done|by apply IH].
Qed.
(** C41, one step per step, does not hold: a step in which a subflow fails is recorded in two pieces. *)
Theorem C41_refuted : exists E d uri s,
  built d /\ built_env E /\ visited E d uri s /\ e_ext E = true /\ e_rec E = Some RMStep /\
  (lap E s).1 = Ok true /\ steps_in (s_log (lap E s).2) = (2 + steps_in (s_log s))%nat.
Proof. exact two_steps_recorded. Qed.
Print Assumptions C41_refuted.
