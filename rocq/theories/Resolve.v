(** The references in mappings and expressions ("$activity[a].o", "$flow.x", ...) and the subflow activity.
    Models /repo/definition/resolve.go, the scopes of /repo/instance/scopes.go and
    /repo/instance/instance.go:237-252, and /repo/activity/subflow/activity.go. *)
From Verif Require Export Engine.
Local Open Scope Z_scope.

(** ** References *)

(** A reference, after the core library has taken it apart into resolver, item and value name; one constructor for each
    resolver of the flow, /repo/definition/resolve.go:12-21. Not modelled: ".", "env", "property", "loop", whose
    resolvers belong to the core library. *)
Inductive ref :=
  | RFlow (value : string)
  | RActivity (item value : string)
  | RContext (item : string)
  | RError (item value : string)
  | RIteration (item field : string).

(** A name of working data: strings.HasPrefix(name, "_W.") and name[3:], /repo/instance/scopes.go:15-16. *)
Definition working_name (name : string) : option string :=
  match name with
  | String "_"%char (String "W"%char (String "."%char r)) => Some r
  | _ => None
  end.

(** Working data as the value that a reference sees: the map of /repo/model/simple/iteratorbehavior.go:104-108 and the
    struct of /repo/model/simple/dowhilebehavior.go:19-21 (simplified: as an object). Iterators and retry data are
    opaque: no resolver of the flow asks for them. *)
Definition work_val (w : wval) : val :=
  match w with
  | WIteration k v n => VObj [("key", k); ("value", v); ("index", VInt n)]
  | WDoWhile n => VObj [("index", VInt n)]
  | WIter _ | WRetry _ _ => VOther 0
  end.

(** GetValue of the scope of a task instance: of the WorkingDataScope (/repo/instance/scopes.go:14-24) if the task
    instance has working data (/repo/instance/util.go:68-70, /repo/model/simple/dowhilebehavior.go:101-106; it has some
    as soon as a working value is set, /repo/instance/taskinst.go:186-191), else of the flow instance
    (/repo/instance/instance.go:237-252). Definition.GetAttr finds nothing: its attributes are never filled in
    (/repo/definition/definition.go:28,74-84). *)
Definition scope_get (v : view) (name : string) : option val :=
  if decide (v_wd v = ∅) then v_attrs v !! name
  else match working_name name with
       | Some w => work_val <$> v_wd v !! w
       | None => v_attrs v !! name
       end.

(** The Resolve methods, /repo/definition/resolve.go:37-44 (flow), 55-74 (activity), 83-91 (flowctx), 106-130 (error),
    140-150 (iteration). [None]: an error. [pv]: path.GetValue of the core library. *)
Definition resolve (pv : val -> string -> option val) (v : view) (r : ref) : option val :=
  match r with
  | RFlow n => scope_get v n
  | RActivity a n =>
      if String.eqb n "" then scope_get v ("_A." +:+ a) else scope_get v ("_A." +:+ a +:+ "." +:+ n)
  | RContext n => scope_get v ("_fctx." +:+ n)
  | RError a n =>
      w ← (if String.eqb a "" then scope_get v "_E" else scope_get v ("_E." +:+ a));
      if String.eqb n "" then Some w else pv w ("." +:+ n)
  | RIteration a f =>
      w ← scope_get v "_W.iteration";
      if String.eqb f "" then pv w ("." +:+ a) else pv w ("." +:+ a +:+ "." +:+ f)
  end.

(** ** The subflow activity *)

(** The inputs that Eval hands to the subflow: all inputs the subflow declares, as GetInput gives them
    (/repo/activity/subflow/activity.go:85-93, /repo/instance/taskinst.go:103-111: nil for one that is not mapped). A
    subflow without metadata, and one that is not found, gets none. Simplified: the metadata is that of the definition
    found now (Metadata, lines 62-82, keeps that of the first one found). *)
Definition sub_inputs (look : def_res) (ins : vmap) : vmap :=
  match look with
  | DOk d => match d_md d with
             | Some md => map_imap (fun n _ => Some (default VNil (ins !! n))) (md_in md)
             | None => ∅
             end
  | DNil | DErr _ => ∅
  end.

(** The error of StartSubFlow for a subflow that is not found, /repo/instance/util.go:361-367. *)
Definition sub_error (uri : string) (look : def_res) : err :=
  match look with
  | DErr e => e
  | DNil | DOk _ => EOther ("unable to resolve subflow: " +:+ uri)
  end.

(** SubFlowActivity.Eval of a subflow that is not detached, /repo/activity/subflow/activity.go:85-107: not done, so the task
    waits. *)
Definition subflow_eval (look : def_res) (uri : string) (v : view) : act :=
  AStart uri (sub_inputs look (v_in v)) (AEnd (AErr (sub_error uri look))) (AEnd AWait).

(** The same of a detached subflow, /repo/activity/subflow/activity.go:95-97,103 and StartDetachedSubFlow,
    /repo/instance/util.go:383-413: the subflow is a run of its own, of which this flow sees only the error [r] of
    starting it. *)
Definition detached_eval (r : option err) : act :=
  AEnd (match r with Some e => AErr e | None => ADone end).
