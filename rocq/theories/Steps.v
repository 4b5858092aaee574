(** Atomic steps: every state the engine passes through is reached by a few kinds of small changes,
    each with what is known at that moment. Invariants of all runs are proved by induction over
    these steps. No Go counterpart (proof infrastructure). *)
From Verif Require Export Spec.
Local Open Scope Z_scope.

(** ** Elementary state changes *)

(** Append to the log. *)
Definition p_log (e : event) (s : st) : st := set_s_log (e :: s_log s) s.
(** Change one flow instance. *)
Definition p_inst (i : nat) (f : inst -> inst) (s : st) : st :=
  set_s_insts (alter f i (s_insts s)) s.
(** Change one task instance. *)
Definition p_ti (t : nat) (f : tinst -> tinst) (s : st) : st :=
  set_s_tis (alter f t (s_tis s)) s.

(** Assign attributes and log it. *)
Definition p_set (tr : bool) (i : nat) (m : vmap) (s : st) : st :=
  p_log (EvSet i m tr) (p_inst i (fun x => set_i_attrs (m ∪ i_attrs x) x) s).
(** Change the status of a flow instance and log it. *)
Definition p_fstat (i : nat) (z : Z) (s : st) : st :=
  p_log (EvFlowStatus i z) (p_inst i (set_i_status z) s).
(** Change the status of a task instance and log it. *)
Definition p_tstat (t : nat) (x : tinst) (z : Z) (s : st) : st :=
  p_log (EvTaskUpd (ti_inst x) (t_id (ti_task x)) z) (p_ti t (set_ti_status z) s).
(** A fresh task instance. *)
Definition p_tnew (i : nat) (tk : task) (s : st) : st :=
  p_log (EvTaskAdd i (t_id tk))
    (p_inst i (fun x => set_i_tasks (<[t_id tk := s_nti s]> (i_tasks x)) x)
       (set_s_tis (<[s_nti s := mk_tinst i tk TNotStarted ∅ ∅ ∅ ∅ None false]> (s_tis s))
          (set_s_nti (S (s_nti s)) s))).
(** Remove a task instance from the table of its flow. *)
Definition p_tdel (i : nat) (id : string) (s : st) : st :=
  p_log (EvTaskDel i id) (p_inst i (fun x => set_i_tasks (delete id (i_tasks x)) x) s).
(** Create, set and remove link instances. *)
Definition p_lnew (i : nat) (l : link) (s : st) : st :=
  p_log (EvLinkAdd i (l_id l)) (p_inst i (fun x => set_i_links (<[l_id l := LUnset]> (i_links x)) x) s).
Definition p_lset (i : nat) (l : link) (z : Z) (s : st) : st :=
  p_log (EvLinkSet i (l_id l) z) (p_inst i (fun x => set_i_links (<[l_id l := z]> (i_links x)) x) s).
Definition p_ldel (i : nat) (l : link) (s : st) : st :=
  p_log (EvLinkDel i (l_id l)) (p_inst i (fun x => set_i_links (delete (l_id l) (i_links x)) x) s).
(** Schedule a task instance. *)
Definition p_sched (t : nat) (x : tinst) (s : st) : st :=
  p_log (EvQAdd (S (s_wictr s)) (ti_inst x) (t_id (ti_task x)))
    (set_s_queue (s_queue s ++ [(S (s_wictr s), t)]) (set_s_wictr (S (s_wictr s)) s)).
(** Create an embedded instance started by task instance [t]. *)
Definition p_sub (t : nat) (x : tinst) (uri : string) (d : defn) (s : st) : st :=
  let i := S (s_sfctr s) in
  p_log (EvSubCreated i uri (ti_inst x) (t_id (ti_task x)))
    (set_s_insts (<[i := mk_inst (Some t) false FNotStarted d uri ∅ ∅ false None None ∅ false]> (s_insts s))
      (set_s_sfctr i (set_s_subs ({[ i ]} ∪ s_subs s) s))).

(** ** Facts that stay true *)

(** Task instance [t] is an instance of task [tk] in flow instance [i]. *)
Definition ti_is (s : st) (t i : nat) (tk : task) : Prop :=
  exists x, s_tis s !! t = Some x /\ ti_inst x = i /\ ti_task x = tk.
(** Flow instance [i] runs definition [d] and was started by [h]. *)
Definition inst_is (s : st) (i : nat) (d : defn) (h : option nat) : Prop :=
  exists y, s_insts s !! i = Some y /\ i_def y = d /\ i_host y = h.
(** The event has happened. *)
Definition logged (s : st) (e : event) : Prop := e ∈ s_log s.
(** The event has happened since the current work item was taken. *)
Definition lately (s : st) (e : event) : Prop :=
  exists l1 l2, s_log s = l1 ++ e :: l2 /\ forall w i id, EvQDel w i id ∉ l1.
(** The status ends a task. *)
Definition final (z : Z) : Prop := z = TDone \/ z = TSkipped \/ z = TFailed.
(** Task [id] of flow instance [i] has finished some time. *)
Definition finished (s : st) (i : nat) (id : string) : Prop :=
  exists z, final z /\ logged s (EvTaskUpd i id z).
(** Task [id] of flow instance [i] was ready some time. *)
Definition readied (s : st) (i : nat) (id : string) : Prop := logged s (EvTaskUpd i id TReady).

(** The incoming link has been decided. *)
Definition decided (s : st) (i : nat) (l : link) : Prop :=
  exists z, (z = LFalse \/ z = LTrue \/ z = LSkipped) /\ logged s (EvLinkSet i (l_id l) z).
(** All incoming links of the task of [t] have been decided. *)
Definition rdy (s : st) (t : nat) : Prop :=
  exists i tk, ti_is s t i tk /\ forall l, l ∈ t_from tk -> decided s i l.
(** And one of them was decided true, if there are any. *)
Definition rdyT (s : st) (t : nat) : Prop :=
  exists i tk, ti_is s t i tk /\ (forall l, l ∈ t_from tk -> decided s i l) /\
    (t_from tk = [] \/ exists l, l ∈ t_from tk /\ logged s (EvLinkSet i (l_id l) LTrue)).
(** Task instance [t] of flow [i] for task [id] has reached its end while [c] executes. *)
Definition closing (s : st) (c : option nat) (t i : nat) (id : string) : Prop :=
  finished s i id /\ (c = Some t \/ rdy s t).

(** Flow instance [i] is the one the executing task instance [c] belongs to, or one started by it
    ([None]: the start of the main flow) that has become active. *)
Definition act_inst (s : st) (c : option nat) (i : nat) : Prop :=
  (exists t tk, c = Some t /\ ti_is s t i tk) \/ (exists d, inst_is s i d c /\ logged s (EvFlowStatus i FActive)).

(** Task instance [t] is in the table of flow instance [i] under [id]. *)
Definition registered (s : st) (i : nat) (id : string) (t : nat) : Prop :=
  exists y, s_insts s !! i = Some y /\ i_tasks y !! id = Some t.

(** Task instance [t] (with contents [x]) has just been made ready. *)
Definition sched_new (s : st) (c : option nat) (t : nat) (x : tinst) : Prop :=
  rdyT s t /\ readied s (ti_inst x) (t_id (ti_task x)) /\ act_inst s c (ti_inst x) /\
  registered s (ti_inst x) (t_id (ti_task x)) t /\ ti_status x = TReady.

(** Functions that only touch the data of a task instance / the results of a flow instance. *)
Definition ti_data (f : tinst -> tinst) : Prop :=
  forall x, ti_inst (f x) = ti_inst x /\ ti_task (f x) = ti_task x /\ ti_status (f x) = ti_status x.
(** Functions that only touch the settings and the scheduled flag of a task instance. *)
Definition ti_keeps (f : tinst -> tinst) : Prop :=
  forall x, ti_in (f x) = ti_in x /\ ti_out (f x) = ti_out x /\ ti_wd (f x) = ti_wd x /\
    ti_rerr (f x) = ti_rerr x.
Definition inst_data (f : inst -> inst) : Prop :=
  forall y, i_host (f y) = i_host y /\ i_handling (f y) = i_handling y /\ i_status (f y) = i_status y /\
    i_def (f y) = i_def y /\ i_uri (f y) = i_uri y /\ i_tasks (f y) = i_tasks y /\
    i_links (f y) = i_links y /\ i_attrs (f y) = i_attrs y /\ i_force (f y) = i_force y.

(** Events that carry information only (no state change goes with them and no invariant of the
    state depends on them). *)
Definition note_ev (e : event) : Prop :=
  match e with
  | EvActEnd _ _ _ | EvLinkEval _ _ _ | EvIcpt _ _ | EvAssert _ _ _ | EvCov _ _
  | EvReturn _ _ _ | EvCond _ _ _ _ | EvResult _ _ | EvFlowEvent _ _ _ _ _ => True
  | _ => False
  end.
(** Events of the caller of the engine. *)
Definition caller_ev (e : event) : Prop :=
  match e with
  | EvStep | EvSkipStep | EvRecStart | EvRecDone | EvResult _ _ | EvHandlerDone => True
  | _ => False
  end.
(** The last thing that happened is that flow instance [i] has failed; a listener may have been told. *)
Definition now_failed (l : list event) (i : nat) : Prop :=
  exists r, l = EvFlowStatus i FFailed :: r \/ exists j z ins outs e, l = EvFlowEvent j z ins outs e :: EvFlowStatus i FFailed :: r.
(** The same; a snapshot may have been recorded since. *)
Definition just_failed (l : list event) (i : nat) : Prop :=
  now_failed l i \/ exists sn r, l = EvSnapshot sn :: r /\ now_failed r i.

(** The interceptor neither skips the task nor replaces its execution. *)
Definition not_intercepted (E : env) (fname id : string) : Prop :=
  (forall c, task_icpt E id = Some c -> tc_skip c = false) /\
  (forall c, task_icpt E (fname +:+ "-" +:+ id) = Some c -> tc_skipexec c = false).

(** ** Atomic steps while task instance [c] executes ([None]: while the flow is started) *)
(** All attributes of [m] are such. *)
Definition all_named_for (E : env) (id : string) (m : vmap) : Prop := forall k v, m !! k = Some v -> named_for E id k.

(** "$error" of flow [i] may change: the flow is not handling an error, it has just failed, an activity sets the
    attribute itself, or link expressions can fail. *)
Definition may_note (E : env) (s : st) (i : nat) (y : inst) : Prop :=
  i_handling y = false \/ lately s (EvFlowStatus i FFailed) \/ scoped E "_E" \/ exists n v l e, e_link E n v l = XErr e.

Inductive astep (E : env) (c : option nat) : st -> st -> Prop :=
  | S_tick s : astep E c s (set_s_tick (S (s_tick s)) s)
  | S_lock b s : astep E c s (set_s_lock b s)
  | S_note e s : note_ev e -> astep E c s (p_log e s)
  | S_snap s : astep E c s (p_log (EvSnapshot (take_snapshot s)) s)
  | S_rec s i : i <> 0%nat -> just_failed (s_log s) i -> astep E c s (p_log EvStep s)
  | S_act s t x y :
      c = Some t -> s_tis s !! t = Some x -> s_insts s !! ti_inst x = Some y ->
      not_intercepted E (d_name (i_def y)) (t_id (ti_task x)) ->
      astep E c s (p_log (EvAct (ti_inst x) (t_id (ti_task x)) (ti_in x) (ti_wd x !! "iteration")) s)
  | S_post s t x :
      c = Some t -> s_tis s !! t = Some x ->
      astep E c s (p_log (EvPost (ti_inst x) (t_id (ti_task x))) s)
  | S_set s i y m tr :
      s_insts s !! i = Some y ->
      (exists t tk, c = Some t /\ ti_is s t i tk /\ all_named_for E (t_id tk) m /\ (is_Some (m !! "_E") -> may_note E s i y)) \/ i_status y = FNotStarted /\ i_host y = c ->
      (i_status y <> FNotStarted -> tr = e_track E) ->
      astep E c s (p_set tr i m s)
  | S_tdata s t f : ti_data f -> c = Some t \/ ti_keeps f -> astep E c s (p_ti t f s)
  | S_hostok s i y t :
      s_insts s !! i = Some y -> i_host y = Some t -> act_inst s c i -> lately s (EvFlowStatus i FCompleted) ->
      astep E c s (p_ti t (fun x => set_ti_rerr None
                     (set_ti_out (match i_rdata y with Some d => d | None => ∅ end) x)) s)
  | S_hosterr s i y t e :
      s_insts s !! i = Some y -> i_host y = Some t -> act_inst s c i -> lately s (EvFlowStatus i FFailed) ->
      astep E c s (p_ti t (set_ti_rerr (Some e)) s)
  | S_idata s i f : inst_data f -> astep E c s (p_inst i f s)
  | S_return s t i tk d e :
      c = Some t -> ti_is s t i tk ->
      astep E c s (p_inst i (fun x => set_i_force true (set_i_rdata d (set_i_rerr e x))) s)
  | S_handling s i y :
      s_insts s !! i = Some y -> i_handling y = false -> act_inst s c i ->
      astep E c s (p_inst i (set_i_handling true) s)
  | S_clear s i y h y0 :
      s_insts s !! i = Some y -> d_eh (i_def y) = Some h -> act_inst s c i ->
      s_insts s !! 0%nat = Some y0 ->
      astep E c s (p_log (EvTasksClear 0) (p_inst 0 (set_i_tasks ∅) s))
  | S_factive s i y :
      s_insts s !! i = Some y -> i_status y = FNotStarted -> i_host y = c ->
      astep E c s (p_fstat i FActive s)
  | S_ffailed s i y :
      s_insts s !! i = Some y -> act_inst s c i -> astep E c s (p_fstat i FFailed s)
  | S_fcompleted s i y :
      s_insts s !! i = Some y -> act_inst s c i ->
      i_force y = true \/
      (forall id t x, i_tasks y !! id = Some t -> s_tis s !! t = Some x -> TDone <= ti_status x) ->
      astep E c s (p_fstat i FCompleted s)
  | S_fdone s : logged s (EvFlowStatus 0 FCompleted) -> astep E c s (p_log EvFlowDone s)
  | S_subdone s i y t :
      s_insts s !! i = Some y -> i_host y = Some t -> logged s (EvFlowStatus i FCompleted) ->
      astep E c s (p_log (EvSubDone i) s)
  | S_subs s X : X ⊆ s_subs s -> astep E c s (set_s_subs X s)
  | S_sub s t x uri d n :
      c = Some t -> s_tis s !! t = Some x -> e_def E n uri = DOk d ->
      s_insts s !! S (s_sfctr s) = None ->
      astep E c s (p_sub t x uri d s)
  | S_tnew s i y tk :
      s_insts s !! i = Some y -> act_inst s c i -> i_tasks y !! t_id tk = None ->
      tk ∈ all_tasks (i_def y) -> t_act tk <> None -> s_tis s !! s_nti s = None ->
      astep E c s (p_tnew i tk s)
  | S_enter s i id t x :
      registered s i id t -> act_inst s c i -> s_tis s !! t = Some x ->
      astep E c s (p_tstat t x TEntered s)
  | S_ready s i id t x y :
      registered s i id t -> act_inst s c i -> s_tis s !! t = Some x -> s_insts s !! ti_inst x = Some y ->
      scan_links (link_status y) (t_from (ti_task x))
        (match t_from (ti_task x) with [] => false | _ => true end) = Some false ->
      ti_status x = TEntered ->
      astep E c s (p_tstat t x TReady s)
  | S_skip s i id t x y :
      registered s i id t -> act_inst s c i -> s_tis s !! t = Some x -> s_insts s !! ti_inst x = Some y ->
      scan_links (link_status y) (t_from (ti_task x))
        (match t_from (ti_task x) with [] => false | _ => true end) = Some true ->
      ti_status x = TEntered ->
      astep E c s (p_tstat t x TSkipped s)
  | S_reskip s t x :
      s_tis s !! t = Some x -> ti_status x = TSkipped -> act_inst s c (ti_inst x) ->
      logged s (EvTaskUpd (ti_inst x) (t_id (ti_task x)) TSkipped) ->
      astep E c s (p_tstat t x TSkipped s)
  | S_end s t x z :
      c = Some t -> s_tis s !! t = Some x -> z = TDone \/ z = TFailed \/ z = TWaiting ->
      astep E c s (p_tstat t x z s)
  | S_track s t x :
      c = Some t -> s_tis s !! t = Some x ->
      astep E c s (p_log (EvTaskTrk (ti_inst x) (t_id (ti_task x)) (ti_status x)) s)
  | S_lnew s t x y l :
      s_tis s !! t = Some x -> s_insts s !! ti_inst x = Some y -> act_inst s c (ti_inst x) ->
      i_links y !! l_id l = None -> l ∈ t_from (ti_task x) ++ t_to (ti_task x) ->
      astep E c s (p_lnew (ti_inst x) l s)
  | S_lset s t x y l z :
      s_tis s !! t = Some x -> s_insts s !! ti_inst x = Some y -> act_inst s c (ti_inst x) ->
      l ∈ t_to (ti_task x) -> closing s c t (ti_inst x) (t_id (ti_task x)) ->
      z = LFalse \/ z = LTrue \/ z = LSkipped ->
      astep E c s (p_lset (ti_inst x) l z s)
  | S_lupd s i l z :
      logged s (EvLinkSet i l z) -> astep E c s (p_log (EvLinkUpd i l z) s)
  | S_tdel s t x y :
      s_tis s !! t = Some x -> s_insts s !! ti_inst x = Some y -> act_inst s c (ti_inst x) ->
      closing s c t (ti_inst x) (t_id (ti_task x)) ->
      astep E c s (p_tdel (ti_inst x) (t_id (ti_task x)) s)
  | S_ldel s t x y l :
      s_tis s !! t = Some x -> s_insts s !! ti_inst x = Some y -> act_inst s c (ti_inst x) ->
      closing s c t (ti_inst x) (t_id (ti_task x)) -> l ∈ t_from (ti_task x) ->
      astep E c s (p_ldel (ti_inst x) l s)
  | S_sched s t x :
      s_tis s !! t = Some x ->
      sched_new s c t x \/ c = Some t \/
      (exists i d, inst_is s i d (Some t) /\ act_inst s c i /\
                   (lately s (EvFlowStatus i FCompleted) \/ lately s (EvFlowStatus i FFailed))) ->
      astep E c s (p_sched t x s).

(** Any number of atomic steps. *)
Definition asteps (E : env) (c : option nat) : st -> st -> Prop := rtc (astep E c).

(** The states of a run: [reach E d uri c s]. Between tasks the engine takes the next work item and
    the caller of the engine adds its own events. *)
Inductive reach (E : env) (d : defn) (uri : string) : option nat -> st -> Prop :=
  | R_init : reach E d uri None (init_st d uri)
  | R_astep c s s' : reach E d uri c s -> astep E c s s' -> reach E d uri c s'
  | R_step c s : reach E d uri c s -> reach E d uri c (set_s_step (S (s_step s)) s)
  | R_pop c s w t q x y :
      reach E d uri c s -> s_queue s = (w, t) :: q -> s_tis s !! t = Some x ->
      s_insts s !! 0%nat = Some y -> i_status y = FActive ->
      reach E d uri (Some t)
        (p_log (EvQDel w (ti_inst x) (t_id (ti_task x))) (set_s_queue q s))
  | R_set c s m y :
      reach E d uri c s -> s_insts s !! 0%nat = Some y -> reach E d uri c (p_set (e_track E) 0 m s)
  | R_note c s e : reach E d uri c s -> caller_ev e -> reach E d uri c (p_log e s).
