(** Flow definitions and how they are built from their serialised form.
    Models /repo/definition/definition.go and /repo/definition/definition_ser.go. *)
From Verif Require Export Base.

(** Link, /repo/definition/definition.go:449-460. Pointers to the source and target task are
    replaced by the task ids, to be looked up in the section (main or error handler, [l_eh])
    whose task map createLink used. [l_expr] is the compiled expression, named by its text. *)
Record link := mk_link {
  l_id : nat;
  l_type : linktype;
  l_from : string;
  l_to : string;
  l_label : string;
  l_value : string;
  l_expr : option string;
  l_eh : bool
}.

(** What a task iterates on, /repo/definition/definition.go:261 iterateOn: a compiled
    expression or a literal. *)
Inductive iter_on := IOExpr (src : string) | IOVal (v : val).

(** LoopConfig, /repo/definition/definition.go:257-263. *)
Record loop_cfg := mk_loop {
  lc_cond : option string;
  lc_acc : bool;
  lc_delay : Z;
  lc_iter : option iter_on;
  lc_accapply : bool
}.

(** A number that is a literal or an expression,
    /repo/definition/definition.go:289-292 (fields of retryOnErrConfig). *)
Inductive num_cfg := NCExpr (src : string) | NCInt (z : Z).

(** retryOnErrConfig, /repo/definition/definition.go:289-292. *)
Record retry_cfg := mk_retry {
  rc_count : option num_cfg;
  rc_interval : option num_cfg
}.

(** ActivityConfig, /repo/definition/definition.go:185-204. Kept: whether there is an input
    mapper, the declared output names of the activity metadata ([None]: IOMetadata is nil),
    and whether the activity ends the flow (Details, used for explicitReply). The output mapper
    is always the default one (/repo/definition/definition_ser.go:333-349: custom output
    mappings are commented out). Names, loggers, schemas are represented by oracles or dropped. *)
Record act_cfg := mk_act_cfg {
  ac_ref : string;
  ac_inmap : bool;
  ac_outs : option (list string);
  ac_reply : bool
}.

(** Task, /repo/definition/definition.go:355-371. [t_eh]: the task lives in the error handler
    section. [t_set]: it has a settings mapper. isScope is only used for logging and events. *)
Record task := mk_task {
  t_id : string;
  t_name : string;
  t_type : tasktype;
  t_act : option act_cfg;
  t_set : bool;
  t_loop : option loop_cfg;
  t_retry : option retry_cfg;
  t_to : list link;
  t_from : list link;
  t_eh : bool
}.

(** IOMetadata of a flow (core), used at /repo/instance/ind_instance.go:219-238 and
    /repo/instance/instance.go:173-187: declared inputs and outputs with default values
    ([VNil]: no default). A nil and an empty input map behave the same; the output map can
    be nil. *)
Record flow_md := mk_md {
  md_in : vmap;
  md_out : option vmap
}.

(** ErrorHandler, /repo/definition/definition.go:501-504. *)
Record ehandler := mk_eh {
  eh_tasks : list task;
  eh_links : list link
}.

(** Definition, /repo/definition/definition.go:23-36. [d_tasks] lists the task map; the order of
    the list is the (arbitrary) Go iteration order. attrs is never set by the code. *)
Record defn := mk_defn {
  d_name : string;
  d_model : string;
  d_reply : bool;
  d_md : option flow_md;
  d_tasks : list task;
  d_links : list link;
  d_eh : option ehandler
}.

(** Lookup in a task map, /repo/definition/definition.go:54-57 and 515-517. *)
Definition find_task (ts : list task) (id : string) : option task :=
  list_find (fun t => t_id t = id) ts ≫= fun p => Some (p.2).

(** GetTask of the main section, /repo/definition/definition.go:54-57. *)
Definition get_task (d : defn) (id : string) : option task := find_task (d_tasks d) id.

(** GetTask of the error handler, /repo/definition/definition.go:515-517
    ([None] also when there is no error handler; the Go code dereferences nil then). *)
Definition get_eh_task (d : defn) (id : string) : option task :=
  match d_eh d with Some h => find_task (eh_tasks h) id | None => None end.

(** GetLink, /repo/definition/definition.go:60-63 (main section only). *)
Definition get_link (d : defn) (id : nat) : option link :=
  list_find (fun l => l_id l = id) (d_links d) ≫= fun p => Some (p.2).

(** Link.ToTask, /repo/definition/definition.go:488-490: the task the pointer refers to. *)
Definition link_target (d : defn) (l : link) : option task :=
  if l_eh l then get_eh_task d (l_to l) else get_task d (l_to l).

(** All tasks of a definition, both sections (the tables filled at /repo/definition/definition_ser.go:78-86,115-125
    together; used for the bound in [enter_top] and for specifications). *)
Definition all_tasks (d : defn) : list task :=
  d_tasks d ++ match d_eh d with Some h => eh_tasks h | None => [] end.

(** ** Building a definition *)

(** activity.Config (core) as far as createActivityConfig reads it,
    /repo/definition/definition_ser.go:195-377. *)
Record act_rep := mk_act_rep { ar_ref : string; ar_in : vmap; ar_set : vmap }.

(** TaskRep, /repo/definition/definition_ser.go:42-48. *)
Record task_rep := mk_task_rep {
  tr_id : string;
  tr_type : string;
  tr_name : string;
  tr_settings : vmap;
  tr_act : option act_rep
}.

(** LinkRep, /repo/definition/definition_ser.go:51-58. *)
Record link_rep := mk_link_rep {
  lr_type : string;
  lr_name : string;
  lr_to : string;
  lr_from : string;
  lr_label : string;
  lr_value : string
}.

(** DefinitionRep and ErrorHandlerRep, /repo/definition/definition_ser.go:25-39. *)
Record def_rep := mk_def_rep {
  dr_reply : bool;
  dr_name : string;
  dr_model : string;
  dr_md : option flow_md;
  dr_tasks : list task_rep;
  dr_links : list link_rep;
  dr_eh : option (list task_rep * list link_rep)
}.

(** Library code the builder calls: expression compilation, coercions, property resolution for
    the loop delay, mapper factory, createActivityConfig's activity lookup
    (/repo/definition/definition_ser.go:146-632). *)
Record benv := mk_benv {
  b_expr : string -> bool;                 (* ef.NewExpr succeeds *)
  b_toint : val -> option Z;               (* coerce.ToInt *)
  b_tobool : val -> bool;                  (* coerce.ToBool, false on error *)
  b_toobj : val -> option vmap;            (* coerce.ToObject *)
  b_resolve : string -> option val;        (* resolve.Resolve(_, nil) *)
  b_setmap : vmap -> option bool;          (* mf.NewMapper(settings): error, or is it non-nil *)
  b_act : string -> act_rep -> option act_cfg  (* createActivityConfig *)
}.

(** Result of a builder function: Go (value, error); panics are turned into errors by
    HandlePanic at /repo/definition/definition_ser.go:64. *)
Inductive bres (A : Type) := BOk (a : A) | BErr (msg : string).
Arguments BOk {A} a.
Arguments BErr {A} msg.

(** Go's early return on error (/repo/definition/definition_ser.go, e.g. 81-83). *)
Definition bbind {A B} (m : bres A) (f : A -> bres B) : bres B :=
  match m with BOk a => f a | BErr e => BErr e end.
(** Notation for [bbind] (model infrastructure). *)
Notation "x <-! m ; f" := (bbind m (fun x => f)) (at level 60, m at next level, right associativity).

(** The string after a leading '=', /repo/definition/definition_ser.go:547-549,566-568.
    Indexing an empty string panics; the callers guard it where the code does. *)
Definition strip_eq (s : string) : string :=
  match s with String a r => if Ascii.eqb a "="%char then r else s | _ => s end.

(** Does the string start with '=', /repo/definition/definition_ser.go:466,488,582. *)
Definition starts_eq (s : string) : bool :=
  match s with String a _ => Ascii.eqb a "="%char | _ => false end.

(** getRetryOnErrCfg, one of the two numbers, /repo/definition/definition_ser.go:463-483 and
    485-504. *)
Definition retry_num (b : benv) (m : vmap) (key : string) : bres (option num_cfg) :=
  match m !! key with
  | None | Some VNil => BOk None
  | Some v =>
      match v with
      | VStr s =>
          if starts_eq s then
            if b_expr b (strip_eq s) then BOk (Some (NCExpr (strip_eq s)))
            else BErr "compile retry on error condition error"
          else match b_toint b v with
               | Some z => BOk (Some (NCInt z))
               | None => BErr "retryOnError value must be int"
               end
      | _ => match b_toint b v with
             | Some z => BOk (Some (NCInt z))
             | None => BErr "retryOnError value must be int"
             end
      end
  end.

(** getRetryOnErrCfg, /repo/definition/definition_ser.go:450-507. *)
Definition get_retry_cfg (b : benv) (settings : vmap) : bres (option retry_cfg) :=
  match settings !! "retryOnError" with
  | None => BOk None
  | Some v =>
      match b_toobj b v with
      | None => BErr "retryOnError must be an object"
      | Some m =>
          c <-! retry_num b m "count";
          i <-! retry_num b m "interval";
          BOk (Some (mk_retry c i))
      end
  end.

(** The condition of a loop, /repo/definition/definition_ser.go:544-555: a condition that is not
    a string panics (turned into an error); an empty string means no condition. *)
Definition loop_cond (b : benv) (m : vmap) : bres (option string) :=
  match m !! "condition" with
  | None => BOk None
  | Some (VStr s) =>
      if String.eqb s "" then BOk None
      else if b_expr b (strip_eq s) then BOk (Some (strip_eq s))
      else BErr "compile loop condition error"
  | Some _ => BErr "panic: condition is not a string"
  end.

(** iterateOn with its deprecated alias, /repo/definition/definition_ser.go:557-577: an empty
    string panics on the index. *)
Definition loop_iter (b : benv) (m : vmap) : bres (option iter_on) :=
  let v := match m !! "iterateOn" with
           | None | Some VNil => m !! "iterate"
           | Some v => Some v
           end in
  match v with
  | None | Some VNil => BOk None
  | Some (VStr s) =>
      if String.eqb s "" then BErr "panic: index out of range"
      else if b_expr b (strip_eq s) then BOk (Some (IOExpr (strip_eq s)))
      else BErr "compile iterateOn error"
  | Some v => BOk (Some (IOVal v))
  end.

(** delay, /repo/definition/definition_ser.go:579-593. *)
Definition loop_delay (b : benv) (m : vmap) : bres Z :=
  match m !! "delay" with
  | None | Some VNil => BOk 0
  | Some v =>
      v' <-! (match v with
              | VStr s => if starts_eq s
                          then match b_resolve b (strip_eq s) with
                               | Some v' => BOk v' | None => BErr "resolve" end
                          else BOk v
              | _ => BOk v
              end);
      match b_toint b v' with
      | Some z => BOk z
      | None => BErr "loop delay must be int"
      end
  end.

(** getLoopCfgDef, /repo/definition/definition_ser.go:537-604. *)
Definition get_loop_cfg_def (b : benv) (m : option vmap) : bres (option loop_cfg) :=
  match m with
  | None => BErr "loop settings must be an object"
  | Some m =>
      c <-! loop_cond b m;
      i <-! loop_iter b m;
      d <-! loop_delay b m;
      let acc := match m !! "accumulate" with Some v => b_tobool b v | None => false end in
      match c, i with
      | None, None => BOk None
      | _, _ => BOk (Some (mk_loop c acc d i false))
      end
  end.

(** getLoopCfg, /repo/definition/definition_ser.go:509-535. *)
Definition get_loop_cfg (b : benv) (settings : vmap) (ty : string) : bres (option loop_cfg) :=
  lc <-! (match settings !! "loopConfig" with
          | Some v => get_loop_cfg_def b (b_toobj b v)
          | None =>
              match settings !! "doWhile" with
              | Some v =>
                  lc <-! get_loop_cfg_def b (b_toobj b v);
                  BOk (match lc, settings !! "accumulate" with
                       | Some c, Some a =>
                           Some (mk_loop (lc_cond c) (b_tobool b a) (lc_delay c) (lc_iter c) (lc_accapply c))
                       | _, _ => lc
                       end)
              | None => get_loop_cfg_def b (Some settings)
              end
          end);
  BOk (match lc with
       | Some c => if String.eqb ty "doWhile"
                   then Some (mk_loop (lc_cond c) (lc_acc c) (lc_delay c) (lc_iter c) true)
                   else Some c
       | None => None
       end).

(** IsValidTaskType with the models registered by the engine ("flogo-simple" by
    /repo/model/simple/model.go:11-13, "" by /repo/action.go:121):
    /repo/util/modelvalidator.go:17-26, /repo/model/model.go:54-62. [Some] gives the behaviour
    registered under that name, /repo/model/simple/model.go:15-22. *)
Definition valid_task_type (modelid ty : string) : option tasktype :=
  if orb (String.eqb modelid "") (String.eqb modelid "flogo-simple") then
    if String.eqb ty "basic" then Some TBasic
    else if String.eqb ty "iterator" then Some TIterator
    else if String.eqb ty "doWhile" then Some TDoWhile
    else None
  else None.

(** createTask, /repo/definition/definition_ser.go:146-193. Second result: the activity sets
    explicitReply (185-187). *)
Definition create_task (b : benv) (modelid : string) (eh : bool) (r : task_rep) : bres (task * bool) :=
  ty <-! (if String.eqb (tr_type r) "" then BOk TBasic
          else match valid_task_type modelid (tr_type r) with
               | Some t => BOk t
               | None => BErr "Unsupported task type"
               end);
  lc <-! get_loop_cfg b (tr_settings r) (tr_type r);
  rc <-! get_retry_cfg b (tr_settings r);
  sm <-! (match b_setmap b (tr_settings r) with Some x => BOk x | None => BErr "settings mapper" end);
  ac <-! (match tr_act r with
          | None => BOk None
          | Some ar => match b_act b (tr_id r) ar with
                       | Some c => BOk (Some c)
                       | None => BErr "activity config"
                       end
          end);
  BOk (mk_task (tr_id r) (tr_name r) ty ac sm lc rc [] [] eh,
       match ac with Some c => ac_reply c | None => false end).

(** [def.tasks[task.id] = task], /repo/definition/definition_ser.go:84,123: a later task with the
    same id replaces the earlier one. *)
Fixpoint put_task (ts : list task) (t : task) : list task :=
  match ts with
  | [] => [t]
  | t' :: r => if String.eqb (t_id t') (t_id t) then t :: r else t' :: put_task r t
  end.

(** The task loop of NewDefinition, /repo/definition/definition_ser.go:78-85 and 117-124. *)
Fixpoint create_tasks (b : benv) (modelid : string) (eh : bool) (rs : list task_rep)
    (ts : list task) (reply : bool) : bres (list task * bool) :=
  match rs with
  | [] => BOk (ts, reply)
  | r :: rs' =>
      tr <-! create_task b modelid eh r;
      create_tasks b modelid eh rs' (put_task ts tr.1) (orb reply tr.2)
  end.

(** The type switch of createLink, /repo/definition/definition_ser.go:400-425: unknown types fall
    back to a dependency link with a warning. *)
Definition link_type_of (b : benv) (r : link_rep) : bres (linktype * option string) :=
  let ty := lr_type r in
  if orb (String.eqb ty "expression") (String.eqb ty "1") then
    if String.eqb (lr_value r) "" then BErr "expression value not set on link"
    else if b_expr b (lr_value r) then BOk (LtExpression, Some (lr_value r))
    else BErr "invalid expression"
  else if orb (String.eqb ty "label") (String.eqb ty "2") then BOk (LtLabel, None)
  else if orb (String.eqb ty "error") (String.eqb ty "3") then BOk (LtError, None)
  else if orb (String.eqb ty "exprOtherwise") (String.eqb ty "4") then BOk (LtExprOtherwise, None)
  else BOk (LtDependency, None).

(** Append a link to fromLinks of its target and to toLinks of its source,
    /repo/definition/definition_ser.go:441-445. *)
Definition attach_link (l : link) (t : task) : task :=
  mk_task (t_id t) (t_name t) (t_type t) (t_act t) (t_set t) (t_loop t) (t_retry t)
    (if String.eqb (t_id t) (l_from l) then t_to t ++ [l] else t_to t)
    (if String.eqb (t_id t) (l_to l) then t_from t ++ [l] else t_from t)
    (t_eh t).

(** createLink, /repo/definition/definition_ser.go:396-448. *)
Definition create_link (b : benv) (eh : bool) (ts : list task) (id : nat) (r : link_rep)
    : bres (list task * link) :=
  te <-! link_type_of b r;
  match find_task ts (lr_to r), find_task ts (lr_from r) with
  | None, _ => BErr "ToTask not found"
  | _, None => BErr "FromTask not found"
  | Some _, Some _ =>
      let l := mk_link id te.1 (lr_from r) (lr_to r) (lr_label r) (lr_value r) te.2 eh in
      BOk (attach_link l <$> ts, l)
  end.

(** The link loops of NewDefinition, /repo/definition/definition_ser.go:90-105 and 129-138. *)
Fixpoint create_links (b : benv) (eh : bool) (ts : list task) (ls : list link) (id : nat)
    (rs : list link_rep) : bres (list task * list link) :=
  match rs with
  | [] => BOk (ts, ls)
  | r :: rs' =>
      tl <-! create_link b eh ts id r;
      create_links b eh tl.1 (ls ++ [tl.2]) (S id) rs'
  end.

(** NewDefinition, /repo/definition/definition_ser.go:62-144. *)
Definition new_definition (b : benv) (r : def_rep) : bres defn :=
  tr <-! create_tasks b (dr_model r) false (dr_tasks r) [] (dr_reply r);
  tl <-! create_links b false tr.1 [] 0%nat (dr_links r);
  match dr_eh r with
  | None => BOk (mk_defn (dr_name r) (dr_model r) tr.2 (dr_md r) tl.1 tl.2 None)
  | Some (ets, els) =>
      etr <-! create_tasks b (dr_model r) true ets [] tr.2;
      etl <-! create_links b true etr.1 [] (length (dr_links r)) els;
      BOk (mk_defn (dr_name r) (dr_model r) etr.2 (dr_md r) tl.1 tl.2 (Some (mk_eh etl.1 etl.2)))
  end.
