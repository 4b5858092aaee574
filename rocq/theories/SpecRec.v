(** The vocabulary for recorded steps, snapshots and saved instances. Nothing here is used by the
    model. No Go counterpart. *)
From Verif Require Export Spec Tracker Ser.
Local Open Scope Z_scope.

(** ** Replaying recorded steps *)

(** What one sees of a flow: status, tasks and links with their statuses. *)
Record fview := mk_fv { fv_status : Z; fv_tasks : gmap string Z; fv_links : gmap nat Z }.

(** A change of a task or link: removed, or there with this status. *)
Definition replay_entry (c : option (chg * Z)) (z : option Z) : option Z :=
  match c with
  | None => z
  | Some (CDelete, _) => None
  | Some (_, z') => Some z'
  end.
(** A change of a flow. A new flow starts from nothing; status 0 stands for no change of status. *)
Definition replay_flow (c : flow_chg) (v : option fview) : fview :=
  let v := if fc_new c then mk_fv 0 ∅ ∅ else default (mk_fv 0 ∅ ∅) v in
  mk_fv (if decide (fc_status c = 0) then fv_status v else fc_status c)
    (merge replay_entry (fc_tasks c) (fv_tasks v))
    (merge replay_entry (fc_links c) (fv_links v)).
(** The changes of a step. *)
Definition replay_step (w : gmap nat fview) (p : step) : gmap nat fview :=
  merge (fun c v => match c with Some c => Some (replay_flow c v) | None => v end) (sp_flows p) w.
(** The changes of steps, oldest first, over the empty state. *)
Definition replay (ps : list step) : gmap nat fview := foldl replay_step ∅ ps.

(** What one sees of the flows of an instance. *)
Definition live (s : st) : gmap nat fview :=
  (fun y => mk_fv (i_status y) (omap (fun t => ti_status <$> s_tis s !! t) (i_tasks y)) (i_links y)) <$> s_insts s.

(** Nothing is reported of a task or link after its removal, no error handler has emptied the table
    of tasks, no step has been dropped: [l] newest event first. *)
Fixpoint in_order (l : list event) : Prop :=
  match l with
  | [] => True
  | e :: r =>
      in_order r /\
      match e with
      | EvTaskAdd i id | EvTaskUpd i id _ | EvTaskTrk i id _ => EvTaskDel i id ∉ r
      | EvLinkAdd i n | EvLinkSet i n _ | EvLinkUpd i n _ => EvLinkDel i n ∉ r
      | EvTasksClear _ | EvSkipStep => False
      | _ => True
      end
  end.
(** The status last given to a link ([told]: last reported), newest event first. *)
Fixpoint link_given (told : bool) (l : list event) (i n : nat) : option Z :=
  match l with
  | [] => None
  | EvLinkSet j m z :: r =>
      if told then link_given told r i n else if decide (j = i /\ m = n) then Some z else link_given told r i n
  | EvLinkUpd j m z :: r =>
      if told then if decide (j = i /\ m = n) then Some z else link_given told r i n else link_given told r i n
  | _ :: r => link_given told r i n
  end.
(** The status last given to a link has been reported, for every link. *)
Definition links_reported (s : st) : Prop :=
  forall i n, link_given true (s_log s) i n = link_given false (s_log s) i n.

(** ** Snapshots *)

(** The last number different from 0 in a list (0 if there is none). *)
Definition last_nonzero (zs : list Z) : Z := foldr (fun z a => if decide (a = 0) then z else a) 0 zs.
(** What is left of these reports: nothing, or the last number different from 0. *)
Definition reported (zs : list Z) : option Z := match zs with [] => None | _ => Some (last_nonzero zs) end.
(** Only the main flow changes in these steps. *)
Definition main_only (ps : list step) : Prop :=
  forall p i c, p ∈ ps -> sp_flows p !! i = Some c -> i = 0%nat /\ fc_sub c = 0%nat.
(** The changes of the main flow, in the order of the steps. *)
Definition main_changes (ps : list step) : list flow_chg := omap (fun p => sp_flows p !! 0%nat) ps.
(** The statuses reported for a task and for a link in these changes, in order. *)
Definition task_reports (cs : list flow_chg) (id : string) : list Z := omap (fun c => snd <$> fc_tasks c !! id) cs.
Definition link_reports (cs : list flow_chg) (n : nat) : list Z := omap (fun c => snd <$> fc_links c !! n) cs.
(** The values reported for an attribute. *)
Definition attr_reports (cs : list flow_chg) (k : string) : list val := omap (fun c => fc_attrs c !! k) cs.

(** ** Saved instances *)

(** Go writes the entries of a map in any order. *)
Definition same_flow (f g : saved_flow) : Prop :=
  sf_uri f = sf_uri g /\ sf_status f = sf_status g /\
  sf_attrs f ≡ₚ sf_attrs g /\ sf_tasks f ≡ₚ sf_tasks g /\ sf_links f ≡ₚ sf_links g.
(** [v] is what can be written of [s], an instance called [id]. *)
Definition saves (id : string) (s : st) (v : saved) : Prop :=
  exists v0 l, marshal id s = Some v0 /\ sv_id v = sv_id v0 /\ sv_queue v = sv_queue v0 /\ same_flow (sv_main v0) (sv_main v) /\
    l ≡ₚ sv_subs v0 /\ Forall2 (fun p q => p.1 = q.1 /\ same_flow p.2 q.2) l (sv_subs v).
(** The work items of an instance: id, task and flow. *)
Definition items (s : st) : list (nat * string * nat) :=
  omap (fun w => (fun x => (w.1, t_id (ti_task x), ti_inst x)) <$> s_tis s !! w.2) (s_queue s).
(** The flow of a work item is the main flow or a live subflow. *)
Definition live_item (s : st) (w : nat * string * nat) : Prop := w.2 = 0%nat \/ w.2 ∈ s_subs s.
(** Flow [i] of [s] has come through as [f]: uri, status, tasks and links with their statuses are
    the same, the attributes are what [js] makes of them. *)
Definition flow_kept (js : val -> option val) (s : st) (i : nat) (f : loaded_flow) : Prop :=
  exists y, s_insts s !! i = Some y /\ lf_uri f = i_uri y /\ lf_status f = i_status y /\
    (forall k, lf_attrs f !! k = i_attrs y !! k ≫= js) /\
    (forall n, lf_tasks f !! n = i_tasks y !! n ≫= fun t => ti_status <$> s_tis s !! t) /\
    lf_links f = i_links y.

(** ** Counting steps *)

(** The number of steps handed to the recorder in these events. *)
Definition steps_in (l : list event) : nat := length (omap (fun e => match e with EvStep => Some tt | _ => None end) l).
(** The number of times a subflow has failed in these events. *)
Definition subflow_failures (l : list event) : nat :=
  length (omap (fun e => match e with EvFlowStatus (S _) z => if decide (z = FFailed) then Some tt else None | _ => None end) l).
