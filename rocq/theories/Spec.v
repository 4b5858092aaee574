(** The vocabulary in which the properties are stated: runs, graphs, well-behaved environments and
    what an observer sees. Nothing here is used by the model. No Go counterpart. *)
From Verif Require Export RunLoop.
Local Open Scope Z_scope.

(** ** Runs *)

(** A freshly created instance of [d] after Start with the given inputs. *)
Definition started (E : env) (d : defn) (uri : string) (ins : vmap) : st :=
  (start E ins (init_st d uri)).2.

(** The state after [n] calls of DoStep. *)
Fixpoint after (E : env) (n : nat) (s : st) : st :=
  match n with O => s | S n' => after E n' (do_step E s).2 end.

(** One round of the loop of a run: a step and, with a recorder, recording the state. *)
Definition lap (E : env) : M bool :=
  more <- do_step E; (if e_ext E then record_state E else ret tt) ;; ret more.
(** The state after [n] rounds. *)
Fixpoint laps (E : env) (n : nat) (s : st) : st :=
  match n with O => s | S n' => laps E n' (lap E s).2 end.

(** The number of steps a run starts counting from. *)
Definition first_count (ro : run_opts) : Z := Z.max 0 (ro_init ro - 1).

(** A run of the action up to its loop. *)
Definition run_begin (E : env) (ro : run_opts) (ins : vmap) : M unit :=
  run_prepare E ro ins ;; run_head E ro.

(** The states of an instance of [d] between the steps of a run: after Start, or after the
    preparation of a whole run of the action, and then any number of steps, with or without
    recording the state in between. *)
Inductive running (E : env) (d : defn) (uri : string) : st -> Prop :=
  | running_start ins : running E d uri (started E d uri ins)
  | running_prepare ro ins :
      (run_begin E ro ins (init_st d uri)).1 = Ok tt ->
      running E d uri (run_begin E ro ins (init_st d uri)).2
  | running_step s : running E d uri s -> running E d uri (do_step E s).2
  | running_record s : running E d uri s -> running E d uri (record_state E s).2.

(** The states an observer can find an instance of [d] in: between the steps of a run, or when a
    whole run of the action has ended (whatever its options, however it ended). *)
Definition visited (E : env) (d : defn) (uri : string) (s : st) : Prop :=
  running E d uri s \/ (exists ro ins, s = (run_flow E ro d uri ins).2).

(** The definition comes out of the definition builder. *)
Definition built (d : defn) : Prop := exists b r, new_definition b r = BOk d.

(** All subflow definitions the outside world provides come out of the builder. *)
Definition built_env (E : env) : Prop := forall n uri d, e_def E n uri = DOk d -> built d.

(** ** What an observer sees *)

(** The events in the order in which they happened. *)
Definition trace (s : st) : list event := rev (s_log s).

(** The activity evaluations, in order: flow instance (0 is the main flow) and task id. *)
Definition evaluations (s : st) : list (nat * string) :=
  omap (fun e => match e with EvAct i id _ _ => Some (i, id) | _ => None end) (trace s).

(** The results given to the caller, in order. *)
Definition delivered (s : st) : list (option vmap * option err) :=
  omap (fun e => match e with EvResult d e => Some (d, e) | _ => None end) (trace s).

(** How often the handler was told that the run is over. *)
Definition done_signals (s : st) : list unit :=
  omap (fun e => match e with EvHandlerDone => Some tt | _ => None end) (trace s).

(** The statuses a flow went through, in order. *)
Definition statuses (i : nat) (s : st) : list Z :=
  omap (fun e => match e with EvFlowStatus j z => if (j =? i)%nat then Some z else None | _ => None end) (trace s).

(** The data a flow returns: what a Reply or Return gave, else the declared outputs with their
    default or attribute value, if outputs are declared. *)
Definition result_data (y : inst) : option vmap :=
  match i_rdata y, d_md (i_def y) with
  | Some d, _ => Some d
  | None, Some (mk_md _ (Some outs)) =>
      Some (map_imap (fun n dflt => match dflt with VNil => i_attrs y !! n | v => Some v end) outs)
  | None, _ => None
  end.

(** The status of the main flow. *)
Definition main_status (s : st) : option Z := i_status <$> s_insts s !! 0%nat.

(** A flow exception assertion is configured for the flow. *)
Definition has_assert (E : env) (y : inst) : Prop :=
  exists c a, task_icpt E (d_name (i_def y) +:+ "-_flowOutput") = Some c /\ tc_type c = 2%Z /\ a ∈ tc_asserts c /\ as_empty a = false.

(** What is delivered at the end, given the main flow [y] when the loop ends after [k] steps. *)
Definition last_results (E : env) (ro : run_opts) (k : Z) (y : inst) (r : list (option vmap * option err)) : Prop :=
  (if bool_decide (k = ro_max ro) && negb (bool_decide (i_status y = FCompleted)) then r = [(None, Some (limit_err E ro))]
  else if bool_decide (i_status y = FCompleted) then r = [(result_data y, i_rerr y)]
  else if bool_decide (i_status y = FFailed) then
    r = [(None, i_rerr y)] \/ (r = [(None, None); (None, i_rerr y)] /\ has_assert E y)
  else r = [])%Z.

(** The next step evaluates task instance [t] (contents [x]): the evaluation of its behaviour (Eval, or
    PostEval for a waiting task) gives [r] and leaves the state [s1]. *)
Definition evaluates (E : env) (s : st) (t : nat) (x : tinst) (r : err + eval_result) (s1 : st) : Prop :=
  main_status s = Some FActive /\ s_tis s !! t = Some x /\ ti_status x <> TSkipped /\ ti_status x <> TDone /\
  exists w q, s_queue s = (w, t) :: q /\
    (if bool_decide (ti_status x = TWaiting) then beh_post else beh_eval) E (t_type (ti_task x)) t
      (set_s_log (EvQDel w (ti_inst x) (t_id (ti_task x)) :: s_log s)
         (set_s_queue q (set_s_step (S (s_step s)) s))) = (Ok r, s1).

(** What happened between two states, in order. *)
Definition happened (s s' : st) : list event := drop (length (trace s)) (trace s').

(** The calls of the activity of task [id] of flow [i] among some events: inputs and $iteration. *)
Definition calls (i : nat) (id : string) (l : list event) : list (vmap * option wval) :=
  omap (fun e => match e with
    | EvAct j n ins it => if bool_decide (j = i /\ n = id) then Some (ins, it) else None
    | _ => None end) l.
(** How these calls ended: without or with an error. *)
Definition outcomes (i : nat) (id : string) (l : list event) : list (option err) :=
  omap (fun e => match e with
    | EvActEnd j n o => if bool_decide (j = i /\ n = id) then Some o else None
    | _ => None end) l.

(** [c] retries are left: these are the outcomes of the calls that follow and the result. *)
Inductive retried (c : Z) : list (option err) -> err + bool -> Prop :=
  | retried_done b : retried c [None] (inr b)
  | retried_error e : (retriable e = true -> c <= 0) -> retried c [Some e] (inl e)
  | retried_again e os r : retriable e = true -> 0 < c -> retried (c - 1) os r -> retried c (Some e :: os) r.

(** A number that is configured as a number; the default is 0. *)
Definition fixed (c : option num_cfg) : option Z :=
  match c with None => Some 0 | Some (NCInt z) => Some z | Some (NCExpr _) => None end.

(** The task has [c] retries left: what its working data says, else what is configured. *)
Definition retries_left (tk : task) (w : gmap string wval) (c : Z) : Prop :=
  match t_retry tk with
  | None => c = 0
  | Some rc => (exists z, fixed (rc_interval rc) = Some z) /\
      match w !! "_retryOnErrorAttr" with
      | None => fixed (rc_count rc) = Some c
      | Some (WRetry c' _) => c = c'
      | Some _ => False
      end
  end.

(** What the task iterates on when it is evaluated first in state [s]. *)
Definition iterates (E : env) (t : nat) (s : st) (lc : loop_cfg) (v : val) : Prop :=
  match lc_iter lc with
  | Some (IOVal v') => v = v'
  | Some (IOExpr src) => e_iter E (s_tick s) (view_of (set_s_tick (S (s_tick s)) s) t) src = XOk v
  | None => v = VNil
  end.

(** A value one can iterate over. *)
Definition iterable (E : env) (v : val) : Prop :=
  match v with VArr _ | VObj _ | VInt _ => True | VStr _ => e_toint E v <> None | _ => False end.

(** What a value has to iterate over, as pairs of key and value: the elements of an array under their
    index, the numbers below a count, the entries of an object. *)
Definition elements_of (E : env) (v : val) : list (val * val) :=
  let count n := (fun k => (VInt k, VInt k)) <$> seqZ 0 n in
  match v with
  | VArr l => imap (fun k v => (VInt (Z.of_nat k), v)) l
  | VObj l => (fun p => (VStr p.1, p.2)) <$> l
  | VInt n => count n
  | VStr _ => match e_toint E v with Some n => count n | None => [] end
  | _ => []
  end.

(** The loop conditions of task [id] of flow [i] among some events: $iteration and value. *)
Definition conditions (i : nat) (id : string) (l : list event) : list (option wval * val) :=
  omap (fun e => match e with
    | EvCond j n it v => if bool_decide (j = i /\ n = id) then Some (it, v) else None
    | _ => None end) l.

(** One evaluation of a task: the state before the step, what happened and the result. *)
Record round := mk_round { rd_from : st; rd_events : list event; rd_result : err + eval_result }.

(** From [s0] a run comes to [s]; these are all evaluations of task instance [t] on the way (no
    evaluation of it ended in a panic, and it was never left waiting). *)
Inductive rounds (E : env) (t : nat) (s0 : st) : list round -> st -> Prop :=
  | rounds_nil : rounds E t s0 [] s0
  | rounds_record l s : rounds E t s0 l s -> rounds E t s0 l (record_state E s).2
  | rounds_other l s :
      rounds E t s0 l s -> (forall w q, s_queue s <> (w, t) :: q) -> rounds E t s0 l (do_step E s).2
  | rounds_eval l s x r s1 :
      rounds E t s0 l s -> evaluates E s t x r s1 -> ti_status x <> TWaiting ->
      rounds E t s0 (l ++ [mk_round s (happened s s1) r]) (do_step E s).2.

(** ** Graphs *)

(** All links of a definition. *)
Definition all_links (d : defn) : list link :=
  d_links d ++ match d_eh d with Some h => eh_links h | None => [] end.

(** The links of each section do not form a cycle. *)
Definition acyclic (d : defn) : Prop :=
  exists rank : bool -> string -> nat,
    forall l, l ∈ all_links d -> (rank (l_eh l) (l_from l) < rank (l_eh l) (l_to l))%nat.

(** No two links connect the same two tasks. *)
Definition no_parallel (d : defn) : Prop :=
  NoDup ((fun l => (l_eh l, l_from l, l_to l)) <$> all_links d).

(** All tasks are basic tasks without retry. *)
Definition plain_tasks (d : defn) : Prop :=
  forall tk, tk ∈ all_tasks d -> t_type tk = TBasic /\ t_retry tk = None /\ t_act tk <> None.

(** ** Well-behaved environments *)

(** An activity that finishes in its call: it sets outputs and flow values and then succeeds or
    fails. *)
Fixpoint act_sync (ok : bool) (a : act) : Prop :=
  match a with
  | AEnd ADone => True
  | AEnd (AErr _) => ok = false
  | AEnd _ => False
  | AOut _ _ k | AOuts _ k | AScope _ _ k => act_sync ok k
  | _ => False
  end.

(** All activities finish in their call ([ok]: and succeed). *)
Definition sync_env (ok : bool) (E : env) : Prop := forall n v, act_sync ok (e_act E n v).

(** Interceptors come with a coverage record. *)
Definition cov_ok (E : env) : Prop := forall c, e_icpt E = Some c -> ic_cov c = true.

(** No link expression fails. *)
Definition links_ok (E : env) : Prop := forall n v l, exists b, e_link E n v l = XOk b.

(** No settings mapper fails. *)
Definition settings_ok (E : env) : Prop := forall n v, exists m, e_setmap E n v = XOk m.

(** Nothing else goes wrong: mappers and schema checks succeed. *)
Definition mappers_ok (E : env) : Prop :=
  (forall n v, exists m, e_inmap E n v = XOk m) /\
  (forall n v, e_inschema E n v = None) /\ (forall n v, e_outschema E n v = None).

(** Nothing but its activity can make the evaluation of the task fail. *)
Definition smooth (E : env) (tk : task) : Prop :=
  mappers_ok E /\ e_icpt E = None /\ t_act tk <> None /\ (forall lc, t_loop tk = Some lc -> lc_acc lc = false).

(** ** Well-formed definitions *)

(** One section (main part or error handler) of a definition: task ids are distinct; links are
    numbered from [n] on, connect tasks of the section, and the link lists of a task are exactly
    the links that name it, in order. *)
Record section_ok (eh : bool) (n : nat) (ts : list task) (ls : list link) : Prop := mk_section_ok {
  so_ids : NoDup (t_id <$> ts);
  so_eh : forall tk, tk ∈ ts -> t_eh tk = eh;
  so_to : forall tk, tk ∈ ts -> t_to tk = List.filter (fun l => String.eqb (l_from l) (t_id tk)) ls;
  so_from : forall tk, tk ∈ ts -> t_from tk = List.filter (fun l => String.eqb (l_to l) (t_id tk)) ls;
  so_num : l_id <$> ls = seq n (length ls);
  so_leh : forall l, l ∈ ls -> l_eh l = eh;
  so_ends : forall l, l ∈ ls -> l_from l ∈ t_id <$> ts /\ l_to l ∈ t_id <$> ts
}.

(** Both sections are well formed; the numbering continues in the error handler. *)
Definition graph_ok (d : defn) : Prop :=
  section_ok false 0 (d_tasks d) (d_links d) /\
  (forall h, d_eh d = Some h -> section_ok true (length (d_links d)) (eh_tasks h) (eh_links h)).

(** The documented names and numbers of link types. *)
Definition link_type_named (ty : string) : linktype :=
  if bool_decide (ty ∈ ["expression"; "1"]) then LtExpression
  else if bool_decide (ty ∈ ["label"; "2"]) then LtLabel
  else if bool_decide (ty ∈ ["error"; "3"]) then LtError
  else if bool_decide (ty ∈ ["exprOtherwise"; "4"]) then LtExprOtherwise
  else LtDependency.

(** A link of the built definition and the representation it comes from. *)
Definition link_as (r : link_rep) (l : link) : Prop :=
  l_from l = lr_from r /\ l_to l = lr_to r /\ l_label l = lr_label r /\ l_value l = lr_value r /\
  l_type l = link_type_named (lr_type r) /\
  l_expr l = (if decide (link_type_named (lr_type r) = LtExpression) then Some (lr_value r) else None).

(** A link representation that is accepted among tasks with the given ids. *)
Definition link_rep_ok (b : benv) (ids : list string) (r : link_rep) : Prop :=
  lr_from r ∈ ids /\ lr_to r ∈ ids /\
  (link_type_named (lr_type r) = LtExpression -> lr_value r <> "" /\ b_expr b (lr_value r) = true).

(** The task types a flow may use: none given, or one of three names under a known model. *)
Definition task_type_ok (model ty : string) : Prop :=
  ty = "" \/ (model ∈ ["" ; "flogo-simple"] /\ ty ∈ ["basic"; "iterator"; "doWhile"]).

(** A setting that is a number or an expression starting with '='. *)
Definition num_setting_ok (b : benv) (m : vmap) (key : string) : Prop :=
  match m !! key with
  | None | Some VNil => True
  | Some (VStr (String "="%char e)) => b_expr b e = true
  | Some v => b_toint b v <> None
  end.

(** The setting retryOnError, if given, is an object whose count and interval are numbers. *)
Definition retry_ok (b : benv) (st : vmap) : Prop :=
  match st !! "retryOnError" with
  | None => True
  | Some v => exists m, b_toobj b v = Some m /\ num_setting_ok b m "count" /\ num_setting_ok b m "interval"
  end.

(** The text of an expression without its optional leading '='. *)
Definition expr_text (s : string) : string :=
  match s with String "="%char r => r | _ => s end.

(** A loop configuration object: a condition is a text that compiles (or is empty); what to
    iterate on is a value or a non-empty text that compiles; a delay is a number (or resolves to
    one). *)
Definition loop_obj_ok (b : benv) (m : vmap) : Prop :=
  match m !! "condition" with
  | None => True
  | Some (VStr s) => s = "" \/ b_expr b (expr_text s) = true
  | Some _ => False
  end /\
  match (match m !! "iterateOn" with None | Some VNil => m !! "iterate" | Some v => Some v end) with
  | Some (VStr s) => s <> "" /\ b_expr b (expr_text s) = true
  | _ => True
  end /\
  match m !! "delay" with
  | None | Some VNil => True
  | Some (VStr (String "="%char e)) => exists v, b_resolve b e = Some v /\ b_toint b v <> None
  | Some v => b_toint b v <> None
  end.

(** The loop settings of a task: the object loopConfig, else the object doWhile, else the
    settings themselves. *)
Definition loop_ok (b : benv) (st : vmap) : Prop :=
  match st !! "loopConfig", st !! "doWhile" with
  | Some v, _ => exists m, b_toobj b v = Some m /\ loop_obj_ok b m
  | None, Some v => exists m, b_toobj b v = Some m /\ loop_obj_ok b m
  | None, None => loop_obj_ok b st
  end.

(** A task representation that is accepted. *)
Definition task_rep_ok (b : benv) (model : string) (r : task_rep) : Prop :=
  task_type_ok model (tr_type r) /\ loop_ok b (tr_settings r) /\ retry_ok b (tr_settings r) /\
  b_setmap b (tr_settings r) <> None /\
  (forall a, tr_act r = Some a -> b_act b (tr_id r) a <> None).

(** A definition representation that is accepted. *)
Definition rep_ok (b : benv) (r : def_rep) : Prop :=
  Forall (task_rep_ok b (dr_model r)) (dr_tasks r) /\
  Forall (link_rep_ok b (tr_id <$> dr_tasks r)) (dr_links r) /\
  (forall ts ls, dr_eh r = Some (ts, ls) ->
     Forall (task_rep_ok b (dr_model r)) ts /\ Forall (link_rep_ok b (tr_id <$> ts)) ls).

(** The last of the representations with a given id counts. *)
Definition last_rep (rs : list task_rep) (r : task_rep) : Prop :=
  exists a c, rs = a ++ r :: c /\ tr_id r ∉ tr_id <$> c.

(** A task of the built definition and its representation: id, name, type and whether it has an
    activity. *)
Definition task_as (r : task_rep) (tk : task) : Prop :=
  t_id tk = tr_id r /\ t_name tk = tr_name r /\
  t_type tk = (if bool_decide (tr_type r = "iterator") then TIterator
               else if bool_decide (tr_type r = "doWhile") then TDoWhile else TBasic) /\
  (t_act tk = None <-> tr_act r = None).

(** ** Leaving a task *)

Definition is_type (ty : linktype) (l : link) : bool := bool_decide (l_type l = ty).

(** Which outgoing links are followed when a task is done, given the values of the link expressions:
    plain and label links always, expression links when the expression holds, error links never, and the
    (last) otherwise link when there are expression links and none of them holds. *)
Definition followed (ls : list link) (v : nat -> bool) (l : link) : bool :=
  match l_type l with
  | LtDependency | LtLabel => true
  | LtExpression => v (l_id l)
  | LtError => false
  | LtExprOtherwise =>
      existsb (is_type LtExpression) ls &&
      forallb (fun l' => negb (is_type LtExpression l' && v (l_id l'))) ls &&
      match last (List.filter (is_type LtExprOtherwise) ls) with Some l' => (l_id l' =? l_id l)%nat | None => false end
  end.

(** The order in which the links of a finished task are handled: the plain ones, then expression,
    otherwise and label links (label, otherwise and expression links with the priority switch), then those
    that are not followed; in each group in the order of the definition. *)
Definition fan_out (prio : bool) (ls : list link) (fol : link -> bool) : list link :=
  let of ty := List.filter (fun l => is_type ty l && fol l) ls in
  of LtDependency ++
  (if prio then of LtLabel ++ of LtExprOtherwise ++ of LtExpression
   else of LtExpression ++ of LtExprOtherwise ++ of LtLabel) ++
  List.filter (fun l => negb (fol l)) ls.

(** The links into a task have all been decided, once the links [ls] are. *)
Definition decided_with (y : inst) (ls : list link) (tk : task) : bool :=
  forallb (fun l => existsb (fun l' => (l_id l' =? l_id l)%nat) ls ||
    match i_links y !! l_id l with Some z => (LFalse <=? z)%Z | None => false end) (t_from tk).

(** The task a link leads to. *)
Definition leads_to (d : defn) (l : link) (tk : task) : Prop :=
  tk ∈ all_tasks d /\ t_eh tk = l_eh l /\ t_id tk = l_to l.

(** Flow and task of the pending work, in order. *)
Definition waiting_work (s : st) : list (nat * string) :=
  omap (fun p => (fun x => (ti_inst x, t_id (ti_task x))) <$> s_tis s !! p.2) (s_queue s).

(** The values of the link expressions of flow [i] among some events: link and value. *)
Definition link_values (i : nat) (l : list event) : list (nat * bool) :=
  omap (fun e => match e with EvLinkEval j k b => if (j =? i)%nat then Some (k, b) else None | _ => None end) l.

(** ** Starting tasks, errors *)

(** No link of the task handles errors. *)
Definition no_error_link (tk : task) : Prop := forall l, l ∈ t_to tk -> l_type l <> LtError.

(** The start tasks of a section: those without incoming link. *)
Definition start_tasks (ts : list task) : list task :=
  List.filter (fun tk => match t_from tk with [] => true | _ => false end) ts.

(** The name an error carries: an activity error its activity, an evaluation error its task. *)
Definition error_source (tk : task) (e : err) : string :=
  match e with
  | EAct _ _ _ _ a => if String.eqb a "" then t_id tk else a
  | EEval n _ _ => n
  | _ => t_id tk
  end.

(** The value [o] describes the error [e] of task [tk]: where it comes from and its message. *)
Definition describes (tk : task) (e : err) (o : option val) : Prop :=
  exists fs, o = Some (VObj fs) /\ ("activity", VStr (error_source tk e)) ∈ fs /\ ("message", VStr (err_text e)) ∈ fs.

(** ** Cycles *)

(** The links as edges between (section, task id). *)
Definition edge (d : defn) (a b : bool * string) : Prop :=
  exists l, l ∈ all_links d /\ l_eh l = a.1 /\ l_from l = a.2 /\ l_eh l = b.1 /\ l_to l = b.2.

(** The task lies on a cycle or some ancestor of it does. *)
Definition behind_cycle (d : defn) (tk : task) : Prop :=
  exists m, tc (edge d) m m /\ rtc (edge d) m (t_eh tk, t_id tk).

(** ** The work queue as seen from outside: (work item id, flow instance, task id) *)

(** Scheduled so far, in order. *)
Definition scheduled (s : st) : list (nat * nat * string) :=
  omap (fun e => match e with EvQAdd w i id => Some (w, i, id) | _ => None end) (trace s).
(** Taken for execution so far, in order. *)
Definition executed (s : st) : list (nat * nat * string) :=
  omap (fun e => match e with EvQDel w i id => Some (w, i, id) | _ => None end) (trace s).
(** Waiting in the queue. *)
Definition pending (s : st) : list (nat * nat * string) :=
  omap (fun p => (fun x => (p.1, ti_inst x, t_id (ti_task x))) <$> s_tis s !! p.2) (s_queue s).

(** The subflow ids handed out, in order. *)
Definition subflow_ids (s : st) : list nat :=
  omap (fun e => match e with EvSubCreated i _ _ _ => Some i | _ => None end) (trace s).

(** A task status that ends a task. *)
Definition ends (z : Z) : Prop := z = TDone \/ z = TSkipped \/ z = TFailed.
(** A decision about a link. *)
Definition decision (z : Z) : Prop := z = LFalse \/ z = LTrue \/ z = LSkipped.

(** The work queue refers to this task instance. *)
Definition queued (s : st) (t : nat) : Prop := t ∈ (s_queue s).*2.

(** The task instance has status [z] and no flow has it in its table of live tasks any more. *)
Definition settled (s : st) (t : nat) (z : Z) : Prop :=
  (exists x, s_tis s !! t = Some x /\ ti_status x = z) /\
  forall i y id, s_insts s !! i = Some y -> i_tasks y !! id <> Some t.

(** ** The flow manager and the recording modes *)

(** A history of lookups: uri, answer, and how often the provider was asked for it. *)
(** The definition first found for a uri. *)
Fixpoint first_success (u : string) (h : list (string * (err + defn) * nat)) : option defn :=
  match h with
  | [] => None
  | (v, inr d, _) :: r => if String.eqb v u then Some d else first_success u r
  | _ :: r => first_success u r
  end.
(** How often the provider was asked in all. *)
Definition asked_in (h : list (string * (err + defn) * nat)) : nat := foldr (fun x n => (x.2 + n)%nat) 0%nat h.

(** [a] is the upper case ASCII letter of [b]. *)
Definition letter_up (a b : ascii) : Prop := (65 <= nat_of_ascii a <= 90 /\ nat_of_ascii b = nat_of_ascii a + 32)%nat.
(** The same character, up to the case of letters. *)
Definition same_letter (a b : ascii) : Prop := nat_of_ascii a = nat_of_ascii b \/ letter_up a b \/ letter_up b a.
(** The same text, up to the case of letters. *)
Fixpoint same_ignoring_case (s s' : string) : Prop :=
  match s, s' with
  | EmptyString, EmptyString => True
  | String c r, String c' r' => same_letter c c' /\ same_ignoring_case r r'
  | _, _ => False
  end.

(** ** What activities assign *)

(** The activity assigns attribute [n] itself. *)
Fixpoint act_scope (n : string) (a : act) : Prop :=
  match a with
  | AEnd _ => False
  | AScope n' _ k => n' = n \/ act_scope n k
  | AOut _ _ k | AOuts _ k | AReply _ _ k | AReturn _ _ k => act_scope n k
  | AStart _ _ k1 k2 => act_scope n k1 \/ act_scope n k2
  end.
(** Some activity does. *)
Definition scoped (E : env) (n : string) : Prop :=
  exists j v, act_scope n (e_act E j v) \/ exists a, e_post E j v = Some a /\ act_scope n a.
(** The attributes an evaluation of task [id] and what follows it may set: those its activity assigns, the error, and
    the outputs. *)
Definition named_for (E : env) (id k : string) : Prop :=
  scoped E k \/ k = "_E" \/ k = "_E." +:+ id \/ k = "_A." +:+ id \/ exists n, k = "_A." +:+ id +:+ "." +:+ n.
