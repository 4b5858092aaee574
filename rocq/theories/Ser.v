(** Saving, loading and restarting an instance: /repo/instance/instance_ser.go, Restart of
    /repo/instance/ind_instance.go and the restart operation of /repo/action.go. *)
From Verif Require Export RunLoop.
Local Open Scope Z_scope.

(** serInstance, /repo/instance/instance_ser.go:130-137, and the same fields of
    serIndependentInstance (12-21): uri, status, attributes, and the lists of tasks (id and status,
    208-215) and links (id and status, 321-328). *)
Record saved_flow := mk_sf {
  sf_uri : string;
  sf_status : Z;
  sf_attrs : list (string * val);
  sf_tasks : list (string * Z);
  sf_links : list (nat * Z)
}.

(** serIndependentInstance, /repo/instance/instance_ser.go:12-21; work items (id, task id, subflow
    id) as their json tags say, /repo/instance/ind_instance.go:816-822. *)
Record saved := mk_saved {
  sv_id : string;
  sv_main : saved_flow;
  sv_queue : list (nat * string * nat);
  sv_subs : list (nat * saved_flow)
}.

(** The fields of one flow instance, /repo/instance/instance_ser.go:32-45,56-64 and 140-167. The
    lists come in the arbitrary order of Go maps. *)
Definition marshal_flow (s : st) (y : inst) : saved_flow :=
  mk_sf (i_uri y) (i_status y) (map_to_list (i_attrs y))
    (map_to_list (omap (fun t => ti_status <$> s_tis s !! t) (i_tasks y))) (map_to_list (i_links y)).

(** What is written of a work item: TaskID and SubFlowID were set from the task instance when it
    was made (/repo/instance/ind_instance.go:826-836). *)
Definition marshal_item (s : st) (w : nat * nat) : nat * string * nat :=
  match s_tis s !! w.2 with
  | Some x => (w.1, t_id (ti_task x), ti_inst x)
  | None => (w.1, "", 0%nat)
  end.

(** IndependentInstance.MarshalJSON, /repo/instance/instance_ser.go:24-65, up to the call of
    json.Marshal: the queue in order, the flow itself, the entries of the map [subflows]. *)
Definition marshal (id : string) (s : st) : option saved :=
  match s_insts s !! 0%nat with
  | None => None
  | Some y =>
      Some (mk_saved id (marshal_flow s y) (marshal_item s <$> s_queue s)
        (omap (fun i => (fun z => (i, marshal_flow s z)) <$> s_insts s !! i) (elements (s_subs s))))
  end.

Section Json.
  (** What writing a value as JSON and reading it back gives; None: it cannot be written
      (encoding/json, not modelled). *)
  Context (js : val -> option val).

  (** A field of attributes, written and read (/repo/instance/instance_ser.go:56,71,164,178). *)
  Definition json_attrs (l : list (string * val)) : option (list (string * val)) :=
    mapM (fun p => (fun v => (p.1, v)) <$> js p.2) l.

  (** A flow, written and read (likewise). *)
  Definition json_flow (f : saved_flow) : option saved_flow :=
    (fun a => mk_sf (sf_uri f) (sf_status f) a (sf_tasks f) (sf_links f)) <$> json_attrs (sf_attrs f).

  (** json.Marshal and json.Unmarshal around the structs, /repo/instance/instance_ser.go:56,71;
      numbers in the structs, strings and lists come back as they are. *)
  Definition json_saved (v : saved) : option saved :=
    m ← json_flow (sv_main v);
    ss ← mapM (fun p => (fun f => (p.1, f)) <$> json_flow p.2) (sv_subs v);
    Some (mk_saved (sv_id v) m (sv_queue v) ss).
End Json.

(** A flow instance after loading, /repo/instance/instance_ser.go:175-208: uri, status, attributes, task table, link table; the fields that
    are not saved are zero (definition, master, host, isHandlingError, returnData, ...). *)
Record loaded_flow := mk_lf {
  lf_uri : string;
  lf_status : Z;
  lf_attrs : vmap;
  lf_tasks : gmap string Z;
  lf_links : gmap nat Z
}.

(** An instance after loading, /repo/instance/instance_ser.go:65-141. A work item has a task instance or none ([true] / [false]). *)
Record loaded := mk_loaded {
  ld_id : string;
  ld_main : loaded_flow;
  ld_subs : gmap nat loaded_flow;
  ld_sfctr : nat;
  ld_queue : list (nat * string * nat * bool);
  ld_wictr : nat
}.

(** Go map assignments in a loop, /repo/instance/instance_ser.go:80-82,88-96,104-106,180-196: the
    last one wins. *)
Definition build_map {K V} `{Countable K} (l : list (K * V)) : gmap K V := foldl (fun m p => <[p.1 := p.2]> m) ∅ l.

(** Instance.UnmarshalJSON, /repo/instance/instance_ser.go:170-199, and the same part of
    IndependentInstance.UnmarshalJSON (75-96). *)
Definition load_flow (f : saved_flow) : loaded_flow :=
  mk_lf (sf_uri f) (sf_status f) (build_map (sf_attrs f)) (build_map (sf_tasks f)) (build_map (sf_links f)).

(** The loop over the work queue, /repo/instance/instance_ser.go:115-127: the task table of a
    subflow that is not there is read through a nil pointer. *)
Fixpoint load_queue (m : loaded_flow) (ss : gmap nat loaded_flow) (l : list (nat * string * nat))
  : out (list (nat * string * nat * bool)) :=
  match l with
  | [] => Ok []
  | ((w, id), b) :: r =>
      match (if decide (0 < b)%nat then lf_tasks <$> ss !! b else Some (lf_tasks m)) with
      | None => Panic "nil subflow"
      | Some ts =>
          match load_queue m ss r with
          | Ok q => Ok ((w, id, b, bool_decide (is_Some (ts !! id))) :: q)
          | o => o
          end
      end
  end.

(** IndependentInstance.UnmarshalJSON, /repo/instance/instance_ser.go:68-130. The counter of
    subflows becomes the largest id of a saved one (98-112), the counter of work items stays 0. *)
Definition unmarshal (v : saved) : out loaded :=
  let m := load_flow (sv_main v) in
  let ss := build_map ((fun p => (p.1, load_flow p.2)) <$> sv_subs v) in
  match load_queue m ss (sv_queue v) with
  | Ok q => Ok (mk_loaded (sv_id v) m ss (foldl (fun c p => if decide (c < p.1)%nat then p.1 else c) 0%nat (sv_subs v)) q 0%nat)
  | Panic e => Panic e
  | Fuel => Fuel
  | Blocked => Blocked
  end.

(** ** Restart *)

(** initTaskInst for a loaded task instance, /repo/instance/taskinst.go:38-58: the task by its id in
    the main section, else in the error handler; no task, or a task without activity
    configuration, panics. *)
Definition init_task (d : defn) (id : string) (z : Z) : option tinst :=
  match (match get_task d id with Some tk => Some tk | None => get_eh_task d id end) with
  | Some tk => match t_act tk with Some _ => Some (mk_tinst 0 tk z ∅ ∅ ∅ ∅ None false) | None => None end
  | None => None
  end.

(** The task instances of the main flow with their numbers in the model's heap (no Go counterpart). *)
Definition numbered (l : list (string * Z)) : list (nat * (string * Z)) := imap (fun n p => (n, p)) l.

(** The number of the task instance of a work item in the model's heap, where [l] are the task
    instances of the main flow. A work item without task instance (nil) gets the number
    [length l], one of a subflow a larger number; neither is in the heap, so using them panics. Go
    panics there too: Restart does not give the loaded subflows and their task instances a
    definition, a master and a flow instance (/repo/instance/ind_instance.go:874-891). *)
Definition item_ti (l : list (nat * (string * Z))) (w : nat * string * nat * bool) : nat :=
  match w with
  | (_, id, b, true) =>
      if decide (b = 0%nat) then default (length l) ((fun x => x.2.1) <$> list_find (fun p => p.2.1 = id) l) else S (length l)
  | _ => length l
  end.

(** The state Restart starts from once it has the definition [d]: init of
    /repo/instance/ind_instance.go:932-945 gives tasks and links of the main flow their
    definitions. None: initTaskInst panics. Simplified: a link that is not in the main section gets a nil
    definition in Go, which panics when it is used; here it keeps its status. The loaded subflows
    count in [s_subs] but have no instance (see [item_ti]). The change tracker is new: the log is
    empty. *)
Definition reopened (d : defn) (l : loaded) : option st :=
  let ts := numbered (map_to_list (lf_tasks (ld_main l))) in
  tis ← mapM (fun p => (fun x => (p.1, x)) <$> init_task d p.2.1 p.2.2) ts;
  let y := mk_inst None false (lf_status (ld_main l)) d (lf_uri (ld_main l))
             (list_to_map ((fun p => (p.2.1, p.1)) <$> ts)) (lf_links (ld_main l)) false None None (lf_attrs (ld_main l)) false in
  Some (mk_st {[ 0%nat := y ]} (list_to_map tis) (S (S (length ts)))
          ((fun w => (w.1.1.1, item_ti ts w)) <$> ld_queue l) (ld_wictr l) (ld_sfctr l) (dom (ld_subs l)) 0%nat 0%nat false []).

(** Taking the first work item off the queue and putting it back at the end with its task ready,
    /repo/instance/ind_instance.go:898-910 and 913-925. [nil]: the number of the missing
    task instance (see [item_ti]); such a work item is dropped. *)
Definition requeue (nil : nat) : M unit :=
  s <- get;
  match s_queue s with
  | [] => ret tt
  | (w, t) :: q =>
      modify (set_s_queue q) ;;
      if decide (t = nil) then ret tt
      else set_task_status t TReady ;; modify (fun s => set_s_queue (s_queue s ++ [(w, t)]) s)
  end.

(** Restart, /repo/instance/ind_instance.go:873-929, called with [init] = InitStepId
    (/repo/action.go:276 passes InitStepId - 1, and Restart tests initStepId + 1 > 0). [dr]: what
    the lookup of the definition gives. Result: None for success, or the error. *)
Definition restart (E : env) (dr : def_res) (init : Z) (l : loaded) : out (option err) * option st :=
  match dr with
  | DErr e => (Ok (Some e), None)
  | DNil => (Ok (Some (EOther ("unable to resolve flow: " +:+ lf_uri (ld_main l)))), None)
  | DOk d =>
      match reopened d l with
      | None => (Panic "nil task", None)
      | Some s =>
          let nil := length (numbered (map_to_list (lf_tasks (ld_main l)))) in
          let m :=
            log_ev EvFlowCreated ;; set_flow_status E 0 FActive ;;
            (if (0 <? init)%Z then requeue nil else ret tt) ;;
            (if (0 <? init)%Z then requeue nil else ret tt) in
          match m s with
          | (Ok _, s') => (Ok None, Some s')
          | (Panic e, s') => (Panic e, Some s')
          | (Fuel, s') => (Fuel, Some s')
          | (Blocked, s') => (Blocked, Some s')
          end
      end
  end.

(** Run with OpRestart, /repo/action.go:256-446, once an initial state has been given: after Restart
    the attributes are updated with the inputs (UpdateAttrs, /repo/instance/instance.go:276-287; the lock
    of a loaded instance is nil) instead of starting the flow. A loaded instance does not track
    attribute changes (trackingChanges, /repo/instance/ind_instance.go:75-77, is not set). Result:
    the error of Run. *)
Definition run_restart (E : env) (ro : run_opts) (dr : def_res) (inputs : vmap) (l : loaded) : out (option err) * option st :=
  let E := set_e_track false E in
  match restart E dr (ro_init ro) l with
  | (Ok None, Some s) =>
      let m :=
        (if e_ext E then flow_state ;; log_ev EvRecStart else ret tt) ;;
        (if String.eqb (ro_event ro) "" then ret tt
         else set_value E 0 "event.id" (VStr (ro_event ro))) ;;
        set_values E 0 inputs ;;
        upd_inst 0 (set_i_handler true) ;;
        (if e_ext E then
           if (ro_init ro <=? 0)%Z then record_state E else log_ev EvSkipStep
         else ret tt) ;;
        run_body E ro in
      match m s with
      | (Ok _, s') => (Ok None, Some s')
      | (Panic e, s') => (Panic e, Some s')
      | (Fuel, s') => (Fuel, Some s')
      | (Blocked, s') => (Blocked, Some s')
      end
  | r => r
  end.
