(** The change tracker and what is made of the recorded steps:
    /repo/instance/instance_chg.go, /repo/state/change, /repo/state/util.go. *)
From Verif Require Export State.
Local Open Scope Z_scope.

(** The kind of a change, /repo/state/change/change.go:6-13. *)
Inductive chg := CAdd | CUpdate | CDelete.

(** Go == on change kinds (/repo/state/change/change.go:6-13). *)
Global Instance chg_eq : EqDecision chg.
Proof. solve_decision. Defined.

(** change.Flow, /repo/state/change/change.go:15-25, with the tasks and links as (kind, status).
    Simplified: ReturnData, the inputs of tasks and the ends of links, which only the debugger
    mode fills in, are left out. *)
Record flow_chg := mk_fc {
  fc_new : bool;
  fc_uri : string;
  fc_sub : nat;
  fc_task : string;
  fc_status : Z;
  fc_attrs : vmap;
  fc_tasks : gmap string (chg * Z);
  fc_links : gmap nat (chg * Z)
}.

(** The zero value [&change.Flow{}] the tracker starts from, /repo/instance/instance_chg.go:138,153,390. *)
Definition fc_empty : flow_chg := mk_fc false "" 0%nat "" 0 ∅ ∅ ∅.

(** change.Queue, /repo/state/change/change.go:40-44: kind, subflow id and task id. *)
Definition queue_chg : Type := chg * nat * string.

(** Step, /repo/state/step.go:7-12. *)
Record step := mk_step {
  sp_id : nat;
  sp_flows : gmap nat flow_chg;
  sp_queue : gmap nat queue_chg
}.

(** SimpleChangeTracker, /repo/instance/instance_chg.go:121-127. The flow URIs of the instances,
    which the Go code reads from the instance at hand, are remembered in [tk_uris]. *)
Record tracker := mk_tk {
  tk_debug : bool;
  tk_ctr : nat;
  tk_step : step;
  tk_uris : gmap nat string
}.

(** NewChangeTracker, /repo/instance/instance_chg.go:112-119: the first step has no Id set. *)
Definition new_tracker (debug : bool) (start : nat) (uri : string) : tracker :=
  mk_tk debug start (mk_step 0%nat ∅ ∅) {[ 0%nat := uri ]}.

(** Replaces the change record of flow [i] in the current step; the lookup with a fresh
    [&change.Flow{}] of /repo/instance/instance_chg.go:136-140,151-155,388-392. *)
Definition upd_flow (i : nat) (f : flow_chg -> flow_chg) (k : tracker) : tracker :=
  let p := tk_step k in
  mk_tk (tk_debug k) (tk_ctr k)
    (mk_step (sp_id p) (<[i := f (default fc_empty (sp_flows p !! i))]> (sp_flows p)) (sp_queue p))
    (tk_uris k).

(** [fc.Status = status], /repo/instance/instance_chg.go:142,186,239. *)
Definition fc_set_status (z : Z) (c : flow_chg) : flow_chg :=
  mk_fc (fc_new c) (fc_uri c) (fc_sub c) (fc_task c) z (fc_attrs c) (fc_tasks c) (fc_links c).

(** [fc.FlowURI = ...], /repo/instance/instance_chg.go:185,238. *)
Definition fc_set_uri (u : string) (c : flow_chg) : flow_chg :=
  mk_fc (fc_new c) u (fc_sub c) (fc_task c) (fc_status c) (fc_attrs c) (fc_tasks c) (fc_links c).

(** SetStatus, /repo/instance/instance_chg.go:130-143. *)
Definition tk_set_status (i : nat) (z : Z) : tracker -> tracker := upd_flow i (fc_set_status z).

(** AttrChange for each attribute of [m], /repo/instance/instance_chg.go:145-163. Simplified: for
    the declared inputs the code hands over the typed value instead of the value
    (/repo/instance/ind_instance.go:230); the model records the value. *)
Definition tk_attrs (i : nat) (m : vmap) (k : tracker) : tracker :=
  if decide (m = ∅) then k
  else upd_flow i (fun c => mk_fc (fc_new c) (fc_uri c) (fc_sub c) (fc_task c) (fc_status c)
                              (m ∪ fc_attrs c) (fc_tasks c) (fc_links c)) k.

(** FlowCreated, /repo/instance/instance_chg.go:165-176; the instance is not started yet. *)
Definition tk_flow_created (k : tracker) : tracker :=
  upd_flow 0%nat (fun _ => mk_fc true (default "" (tk_uris k !! 0%nat)) 0%nat "" 0 ∅ ∅ ∅) k.

(** FlowDone and SubflowDone, /repo/instance/instance_chg.go:178-204,227-255: only in debugger
    mode, where the URI is filled in. The status of the instance, assigned there too, has just
    been recorded by SetStatus in the same or an earlier step: a fresh record gets it. Simplified:
    the status of a fresh record is the last one tracked, handed over as [z]. *)
Definition tk_done (i : nat) (z : Z) (k : tracker) : tracker :=
  if tk_debug k
  then upd_flow i (fun c => fc_set_status z (fc_set_uri (default "" (tk_uris k !! i)) c)) k
  else k.

(** SubflowCreated, /repo/instance/instance_chg.go:206-225. *)
Definition tk_sub_created (i : nat) (uri host : string) (k : tracker) : tracker :=
  upd_flow i (fun _ => mk_fc true uri i host 0 ∅ ∅ ∅)
    (mk_tk (tk_debug k) (tk_ctr k) (tk_step k) (<[i := uri]> (tk_uris k))).

(** getQueueChange with WorkItemAdded and WorkItemRemoved, /repo/instance/instance_chg.go:257-277,
    354-369: the task id is assigned, a removal sets the kind; the subflow id is never set. *)
Definition tk_queue (w : nat) (id : string) (del : bool) (k : tracker) : tracker :=
  let p := tk_step k in
  let '(c, b, _) := default (CAdd, 0%nat, "") (sp_queue p !! w) in
  mk_tk (tk_debug k) (tk_ctr k)
    (mk_step (sp_id p) (sp_flows p) (<[w := (if del then CDelete else c, b, id)]> (sp_queue p)))
    (tk_uris k).

(** getTaskChange and the assignment [f] to the record of the task,
    /repo/instance/instance_chg.go:371-396 with 279-312. The record of the flow gets the id of the
    task, whatever it was before, and the URI if it has none. *)
Definition tk_task (i : nat) (id uri : string) (f : chg * Z -> chg * Z) : tracker -> tracker :=
  upd_flow i (fun c => mk_fc (fc_new c) (if decide (fc_uri c = "") then uri else fc_uri c) (fc_sub c) id
                         (fc_status c) (fc_attrs c)
                         (<[id := f (default (CAdd, 0) (fc_tasks c !! id))]> (fc_tasks c)) (fc_links c)).

(** getLinkChange and the assignment [f] to the record of the link,
    /repo/instance/instance_chg.go:398-418 with 314-332. *)
Definition tk_link (i l : nat) (f : chg * Z -> chg * Z) : tracker -> tracker :=
  upd_flow i (fun c => mk_fc (fc_new c) (fc_uri c) (fc_sub c) (fc_task c) (fc_status c) (fc_attrs c)
                         (fc_tasks c) (<[l := f (default (CAdd, 0) (fc_links c !! l))]> (fc_links c))).

(** ExtractStep(true), /repo/instance/instance_chg.go:334-352: the next step gets the next id. *)
Definition tk_extract (k : tracker) : step * tracker :=
  (tk_step k, mk_tk (tk_debug k) (S (tk_ctr k)) (mk_step (S (tk_ctr k)) ∅ ∅) (tk_uris k)).

(** What one observable event means for the tracker and for the steps handed to the recorder so
    far (newest first): the methods are called where the event is logged (file and line there, in
    State.v); EvStep hands over the extracted step (/repo/instance/recorder.go:26-36), EvSkipStep drops it
    (/repo/action.go:354); emptying the table of tasks (/repo/instance/ind_instance.go:684) and
    the assignment of a link status alone are not tracked. [st_of] is the last status set for the
    flow, needed by [tk_done]. *)
Definition track1 (st_of : nat -> Z) (e : event) (x : tracker * list step) : tracker * list step :=
  let '(k, ps) := x in
  match e with
  | EvFlowCreated => (tk_flow_created k, ps)
  | EvFlowStatus i z => (tk_set_status i z k, ps)
  | EvFlowDone => (tk_done 0%nat (st_of 0%nat) k, ps)
  | EvSubCreated i uri _ host => (tk_sub_created i uri host k, ps)
  | EvSubDone i => (tk_done i (st_of i) k, ps)
  | EvSet i m true => (tk_attrs i m k, ps)
  | EvTaskAdd i id => (tk_task i id (default "" (tk_uris k !! i)) (fun c => (c.1, 0)) k, ps)
  | EvTaskUpd i id z | EvTaskTrk i id z =>
      (tk_task i id (default "" (tk_uris k !! i)) (fun _ => (CUpdate, z)) k, ps)
  | EvTaskDel i id => (tk_task i id "" (fun c => (CDelete, c.2)) k, ps)
  | EvLinkAdd i l => (tk_link i l (fun c => (c.1, 0)) k, ps)
  | EvLinkUpd i l z => (tk_link i l (fun _ => (CUpdate, z)) k, ps)
  | EvLinkDel i l => (tk_link i l (fun c => (CDelete, c.2)) k, ps)
  | EvQAdd w i id => (tk_queue w id false k, ps)
  | EvQDel w i id => (tk_queue w id true k, ps)
  | EvStep => let '(p, k1) := tk_extract k in (k1, p :: ps)
  | EvSkipStep => ((tk_extract k).2, ps)
  | _ => (k, ps)
  end.

(** The status of flow [i] set last in the log (newest first), for [tk_done]
    (/repo/instance/instance_chg.go:186,195,239,246 read [flow.status]); a new flow has status 0. *)
Fixpoint status_in (l : list event) (i : nat) : Z :=
  match l with
  | [] => 0
  | EvFlowStatus j z :: l1 => if decide (j = i) then z else status_in l1 i
  | EvSubCreated j _ _ _ :: l1 => if decide (j = i) then 0 else status_in l1 i
  | _ :: l1 => status_in l1 i
  end.

(** The tracker of an instance with this log (newest first) and the steps it has handed to the
    recorder (newest first): the methods above in the order of their calls (the calls are cited at [event], State.v). *)
Fixpoint tracked (debug : bool) (start : nat) (uri : string) (l : list event) : tracker * list step :=
  match l with
  | [] => (new_tracker debug start uri, [])
  | e :: l1 => track1 (status_in l1) e (tracked debug start uri l1)
  end.

(** The steps recorded in a run, oldest first (recorder.go:26-36). *)
Definition recorded (debug : bool) (start : nat) (uri : string) (s : st) : list step :=
  rev (tracked debug start uri (s_log s)).2.

(** UpdateTasks and UpdateLinks, /repo/state/util.go:116-142,144-170: an entry that is there
    already only changes if its status is 0. Simplified: the entries are a finite map instead of
    a list with different ids. *)
Definition update_entry `{Countable K} (m : gmap K Z) (id : K) (z : Z) : gmap K Z :=
  match m !! id with
  | None => <[id := z]> m
  | Some z0 => if decide (z0 = 0) then <[id := z]> m else m
  end.

(** UpdateFlow, /repo/state/util.go:84-114: attributes of later calls overwrite those of earlier
    ones. The first map of attributes is not copied, so the step it belongs to is changed too (not
    modelled: the steps are not read again). The entries of one change have different ids, so the
    order of the Go maps does not matter here. *)
Definition update_flow (b : snap_base) (c : flow_chg) : snap_base :=
  mk_sb (if fc_new c then fc_uri c else sb_uri b)
    (if decide (sb_status b = 0) then fc_status c else sb_status b)
    (fc_attrs c ∪ sb_attrs b)
    (foldr (fun x m => update_entry m x.1 x.2.2) (sb_tasks b) (map_to_list (fc_tasks c)))
    (foldr (fun x m => update_entry m x.1 x.2.2) (sb_links b) (map_to_list (fc_links c))).

(** UpdateQueue, /repo/state/util.go:66-82; [first] is None for -1. *)
Definition update_queue (q : list (nat * string * nat)) (w : nat) (c : queue_chg) (first : option nat)
  : bool * list (nat * string * nat) * option nat :=
  let '(k, b, id) := c in
  match first, bool_decide (k = CDelete) with
  | None, true => (false, q, Some w)
  | _, _ =>
      if decide (first = Some w) then (true, q, first)
      else (false, if decide (k = CAdd) then q ++ [(w, id, b)] else q, first)
  end.

(** The loop over the queue changes of a step, /repo/state/util.go:48-55, which the first [true]
    leaves. *)
Fixpoint update_queues (q : list (nat * string * nat)) (first : option nat) (l : list (nat * queue_chg))
  : bool * list (nat * string * nat) * option nat :=
  match l with
  | [] => (false, q, first)
  | (w, c) :: l1 =>
      let '(b, q1, f1) := update_queue q w c first in
      if b then (true, q1, f1) else update_queues q1 f1 l1
  end.

Section Snapshots.
  (** The orders in which Go walks through the two maps of a step (any order is possible). *)
  Context (fo : gmap nat flow_chg -> list flow_chg) (qo : gmap nat queue_chg -> list (nat * queue_chg)).

  (** One round of the loop of StepsToSnapshot, /repo/state/util.go:28-57. The record made for
      a subflow is never stored in the map [subflows], so updating it has no effect. *)
  Definition snap_step (p : step) (x : snap_base * (bool * list (nat * string * nat) * option nat))
    : snap_base * (bool * list (nat * string * nat) * option nat) :=
    let '(b, (dn, q, first)) := x in
    (foldl (fun b c => if decide (0 < fc_sub c)%nat then b else update_flow b c) b (fo (sp_flows p)),
     if dn then (dn, q, first) else update_queues q first (qo (sp_queue p))).

  (** StepsToSnapshot, /repo/state/util.go:20-66, for steps given oldest first: the loop runs from
      the newest to the oldest; the map [subflows] stays empty. *)
  Definition steps_to_snapshot (steps : list step) : snapshot :=
    let x := foldr snap_step (mk_sb "" 0 ∅ ∅ ∅, (false, [], None)) steps in
    mk_snap x.1 [] x.2.1.2.
End Snapshots.
