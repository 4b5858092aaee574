(** Finding flow definitions, and the recording modes. Models /repo/support/manager.go,
    /repo/support/definition.go, /repo/state/status.go and the settings part of /repo/action.go. *)
From Verif Require Export State.
Local Open Scope Z_scope.

(** ** The flow manager *)

(** FlowManager, /repo/support/manager.go:24-29: the map of loaded flows. The mutex makes every call
    of GetFlow atomic. [mg_asked] counts the calls of the provider (not in the code; it numbers the
    provider's answers, so a provider can answer differently every time). *)
Record manager := mk_mgr { mg_flows : gmap string defn; mg_asked : nat }.

(** NewFlowManager, /repo/support/manager.go:31-42; which provider is used is a parameter below. *)
Definition new_flow_manager : manager := mk_mgr ∅ 0.

(** materializeFlow, /repo/support/manager.go:182-203. *)
Definition materialize_flow (b : benv) (r : def_rep) : err + defn :=
  match new_definition b r with BOk d => inr d | BErr m => inl (EOther m) end.

(** FlowManager.GetFlow, /repo/support/manager.go:44-71. [prov] is the provider (line 56), e.g.
    BasicRemoteFlowProvider (73-164), which reads files or asks a server. A provider that returns no
    error and no flow is not modelled (the code then panics). *)
Definition get_flow (prov : nat -> string -> err + def_rep) (b : benv) (uri : string) (m : manager) :
    (err + defn) * manager :=
  match mg_flows m !! uri with
  | Some d => (inr d, m)
  | None =>
      let m1 := mk_mgr (mg_flows m) (S (mg_asked m)) in
      match prov (mg_asked m) uri with
      | inl e => (inl e, m1)
      | inr r =>
          match materialize_flow b r with
          | inl e => (inl e, m1)
          | inr d => (inr d, mk_mgr (<[uri := d]> (mg_flows m1)) (mg_asked m1))
          end
      end
  end.

(** GetDefinition, /repo/support/definition.go:19-45: uris of resources ("res://", core library) are looked
    up in the resource manager [res], which has a flow or not; others are left to the flow manager. *)
Definition get_definition (res : string -> option defn) (prov : nat -> string -> err + def_rep) (b : benv)
    (uri : string) (m : manager) : def_res * manager :=
  if String.prefix "res://" uri then
    (match res uri with Some d => DOk d | None => DNil end, m)
  else
    let r := get_flow prov b uri m in
    (match r.1 with inl e => DErr e | inr d => DOk d end, r.2).

(** A sequence of calls of GetFlow (no Go counterpart): the answers, and for each the number of times the
    provider was asked. *)
Fixpoint get_flows (prov : nat -> string -> err + def_rep) (b : benv) (us : list string) (m : manager) :
    list (string * (err + defn) * nat) * manager :=
  match us with
  | [] => ([], m)
  | u :: r =>
      let a := get_flow prov b u m in
      let q := get_flows prov b r a.2 in
      ((u, a.1, mg_asked a.2 - mg_asked m)%nat :: q.1, q.2)
  end.

(** ** Recording modes *)

(** strings.ToLower (Go library) on one byte. Only ASCII letters are changed: the mode names contain
    neither "i" nor "k", the only ASCII letters some other character is lowered to. *)
Definition lower_char (c : ascii) : ascii :=
  let n := nat_of_ascii c in
  if ((65 <=? n) && (n <=? 90))%nat then ascii_of_nat (n + 32) else c.
(** strings.ToLower (Go library), see above; used at /repo/state/status.go:28. *)
Fixpoint to_lower (s : string) : string :=
  match s with
  | EmptyString => EmptyString
  | String c r => String (lower_char c) (to_lower r)
  end.

(** The mode names, /repo/state/status.go:11-22. *)
Definition mode_name (m : recmode) : string :=
  match m with
  | RMOff => "off" | RMDebugger => "debugger" | RMStep => "step" | RMFull => "full" | RMSnapshot => "snapshot"
  end.

(** ToRecordingMode, /repo/state/status.go:25-35; the argument is the text coerce.ToString makes of the
    setting ("" if it cannot). *)
Definition to_recording_mode (m : string) : recmode * option err :=
  let r := to_lower m in
  if String.eqb r "debugger" then (RMDebugger, None)
  else if String.eqb r "off" then (RMOff, None)
  else if String.eqb r "full" then (RMFull, None)
  else if String.eqb r "snapshot" then (RMSnapshot, None)
  else if String.eqb r "step" then (RMStep, None)
  else (RMOff, Some (EOther ("unsupport state recording mode [" +:+ m +:+ "]"))).

(** What Initialize (/repo/action.go:56-126) leaves: stateRecordingMode, whether it got to its end (the flow manager and the model
    are set there), and whether change tracking was enabled. *)
Record init_res := mk_ir { ir_mode : recmode; ir_ready : bool; ir_tracking : bool }.

(** ActionFactory.Initialize, /repo/action.go:56-126, on its first call, as far as the recording mode is
    concerned. [set]: the runtime settings, if there are any (line 76): the mode, if given, and the two
    older settings, as texts ("" if missing). [svc]: a recorder service exists (67-70). strings.EqualFold is
    comparison after ToLower: "full" has no letter with other foldings. *)
Definition initialize (svc : bool) (set : option (option string * string * string)) : init_res :=
  let finish m := mk_ir m true (svc && record_steps m) in
  match set with
  | None => finish RMOff
  | Some (None, sm, pm) =>
      let steps := String.eqb (to_lower "full") (to_lower sm) in
      let snaps := String.eqb (to_lower "full") (to_lower pm) in
      if steps && snaps then finish RMFull
      else if steps then finish RMStep
      else if snaps then finish RMSnapshot
      else finish RMOff
  | Some (Some m, _, _) =>
      match to_recording_mode m with
      | (r, None) => finish r
      | (r, Some _) => mk_ir r false false
      end
  end.
