(** The task and flow behaviours of the simple model that do not call activities.
    Models /repo/model/simple/taskbehavior.go and /repo/model/simple/flowbehavior.go. *)
From Verif Require Export State.
Local Open Scope Z_scope.

(** EnterResult, /repo/model/behavior.go:29-40. *)
Inductive enter_result := ERNotReady | EREval | ERSkip.

(** EvalResult, /repo/model/behavior.go:42-59. *)
Inductive eval_result := EvalFail | EvalDone | EvalRepeat | EvalWait | EvalSkip.

(** TaskEntry, /repo/model/behavior.go:5-10: task and EnterCode. *)
Notation entry := (task * Z)%type.

(** The loop over the incoming links, /repo/model/simple/taskbehavior.go:51-61: [None] means not
    ready, otherwise the flag [skipped]. *)
Fixpoint scan_links (stat : link -> Z) (ls : list link) (skipped : bool) : option bool :=
  match ls with
  | [] => Some skipped
  | l :: r =>
      if (stat l <? LFalse)%Z then None
      else scan_links stat r (if (stat l =? LTrue)%Z then false else skipped)
  end.

(** Enter, /repo/model/simple/taskbehavior.go:24-84. *)
Definition enter (t : nat) : M enter_result :=
  set_task_status t TEntered ;;
  ls <- from_links t;
  x <- get_ti t;
  y <- get_inst (ti_inst x);
  match scan_links (link_status y) ls (match ls with [] => false | _ => true end) with
  | None => ret ERNotReady
  | Some true => set_task_status t TSkipped ;; ret ERSkip
  | Some false => set_task_status t TReady ;; ret EREval
  end.

(** getEnterCode, /repo/model/simple/taskbehavior.go:405-442. *)
Definition enter_code (E : env) (l : link) : Z :=
  match l_type l with
  | LtDependency => 0
  | LtExprOtherwise => 2
  | LtLabel => if e_prio E then 1 else 3
  | LtExpression => if e_prio E then 3 else 1
  | LtError => 4
  end.

(** SortTaskEntries, /repo/model/simple/taskbehavior.go:445-449 (sort.SliceStable on EnterCode):
    stable insertion sort. *)
Fixpoint insert_entry {A} (e : A * Z) (l : list (A * Z)) : list (A * Z) :=
  match l with
  | [] => [e]
  | e' :: r => if (e.2 <=? e'.2)%Z then e :: l else e' :: insert_entry e r
  end.
(** SortTaskEntries, /repo/model/simple/taskbehavior.go:445-449. *)
Fixpoint sort_entries {A} (l : list (A * Z)) : list (A * Z) :=
  match l with [] => [] | e :: r => insert_entry e (sort_entries r) end.

(** EvalLink, /repo/instance/taskinst.go:267-290. A panic in the expression leaves the named
    results at (false, nil): line 274 tests [err != nil], which cannot hold there. *)
Definition eval_link (E : env) (t : nat) (l : link) : M (err + bool) :=
  x <- get_ti t;
  match l_expr l with
  | None => log_ev (EvLinkEval (ti_inst x) (l_id l) true) ;; ret (inr true)
  | Some _ =>
      r <- ext t (fun n v => e_link E n v l);
      match r with
      | XOk b => log_ev (EvLinkEval (ti_inst x) (l_id l) b) ;; ret (inr b)
      | XErr e => log_ev (EvLinkEval (ti_inst x) (l_id l) false) ;; ret (inl e)
      | XPanic _ => log_ev (EvLinkEval (ti_inst x) (l_id l) false) ;; ret (inr false)
      end
  end.

(** The error text built when a link expression fails, /repo/model/simple/taskbehavior.go:266-272. *)
Definition link_error (l : link) (e : err) : err :=
  EOther ("error executing link [" +:+ l_from l +:+ " -> " +:+ l_to l +:+ "]" +:+
          (if String.eqb (l_label l) "" then "" else " with label [" +:+ l_label l +:+ "]") +:+
          ": " +:+ err_text e).

(** State of the loop of Done, /repo/model/simple/taskbehavior.go:226-229: the entries built so
    far (link and EnterCode), hasExprLink, exprLinkFollowed, exprOtherwiseLinkInst. *)
Record done_acc := mk_da {
  da_es : list (link * Z);
  da_has : bool;
  da_fol : bool;
  da_oth : option link
}.

(** One link of the loop of Done, /repo/model/simple/taskbehavior.go:231-283. *)
Definition done_link (E : env) (t i : nat) (l : link) (a : done_acc) : M (err + done_acc) :=
  set_link_status E i l LFalse ;;
  match l_type l with
  | LtError => ret (inr (mk_da (da_es a ++ [(l, 4)]) (da_has a) (da_fol a) (da_oth a)))
  | LtExprOtherwise => ret (inr (mk_da (da_es a ++ [(l, 4)]) (da_has a) (da_fol a) (Some l)))
  | LtDependency | LtLabel =>
      set_link_status E i l LTrue ;;
      ret (inr (mk_da (da_es a ++ [(l, enter_code E l)]) (da_has a) (da_fol a) (da_oth a)))
  | LtExpression =>
      r <- eval_link E t l;
      match r with
      | inl e => ret (inl (link_error l e))
      | inr true =>
          set_link_status E i l LTrue ;;
          ret (inr (mk_da (da_es a ++ [(l, enter_code E l)]) true true (da_oth a)))
      | inr false => ret (inr (mk_da (da_es a ++ [(l, 4)]) true (da_fol a) (da_oth a)))
      end
  end.

Section Done_links_def.
Context (E : env).
(** The loop, /repo/model/simple/taskbehavior.go:231-283. *)
Fixpoint done_links (t i : nat) (ls : list link) (a : done_acc) : M (err + done_acc) :=
  match ls with
  | [] => ret (inr a)
  | l :: r =>
      x <- done_link E t i l a;
      match x with
      | inl e => ret (inl e)
      | inr a' => done_links t i r a'
      end
  end.
End Done_links_def.

(** Turn entries on links into entries on the target tasks (TaskEntry.Task is
    linkInst.Link().ToTask(), /repo/model/simple/taskbehavior.go:235,332,377). A definition built
    by NewDefinition has a task for every link end. *)
Fixpoint resolve_entries (d : defn) (es : list (link * Z)) : option (list entry) :=
  match es with
  | [] => Some []
  | (l, c) :: r =>
      match link_target d l, resolve_entries d r with
      | Some tk, Some r' => Some ((tk, c) :: r')
      | _, _ => None
      end
  end.
(** The same in a flow instance (the loops at /repo/model/simple/taskbehavior.go:230-238,325-335,367-380). *)
Definition entries_of (i : nat) (es : list (link * Z)) : M (list entry) :=
  x <- get_inst i;
  match resolve_entries (i_def x) es with
  | Some r => ret r
  | None => panic "nil task"
  end.

(** Done, /repo/model/simple/taskbehavior.go:199-306: (notifyFlow, entries) or an error. *)
Definition beh_done (E : env) (t : nat) : M (err + bool * list entry) :=
  ls <- to_links t;
  set_task_status t TDone ;;
  x <- get_ti t;
  let i := ti_inst x in
  match ls with
  | [] => ret (inr (true, []))
  | _ =>
      r <- done_links E t i ls (mk_da [] false false None);
      match r with
      | inl e => ret (inl e)
      | inr a =>
          es <- (match da_oth a with
                 | Some l =>
                     if da_has a && negb (da_fol a) then
                       set_link_status E i l LTrue ;;
                       ret ((fun e => if (l_id e.1 =? l_id l)%nat then (e.1, enter_code E l) else e)
                              <$> da_es a)
                     else ret (da_es a)
                 | None => ret (da_es a)
                 end);
          es' <- entries_of i (sort_entries es);
          ret (inr (false, es'))
      end
  end.

(** Skip, /repo/model/simple/taskbehavior.go:309-344. The third result is the named result
    [propagateSkip], which shadows the package variable of the same name (line 17) and is never
    assigned: it is always false, whatever [e_propskip] says. *)
Definition beh_skip (E : env) (t : nat) : M (bool * list entry * bool) :=
  let propagateSkip := false in
  ls <- to_links t;
  set_task_status t TSkipped ;;
  x <- get_ti t;
  match ls with
  | [] => ret (true, [], propagateSkip)
  | _ =>
      iterM (fun l => set_link_status E (ti_inst x) l LSkipped) ls ;;
      es <- entries_of (ti_inst x) ((fun l => (l, 4)) <$> ls);
      ret (false, es, propagateSkip)
  end.

(** Is the link an error link, /repo/model/simple/taskbehavior.go:358,370. *)
Definition is_error_link (l : link) : bool := bool_decide (l_type l = LtError).

(** Error, /repo/model/simple/taskbehavior.go:347-389. *)
Definition beh_error (E : env) (t : nat) : M (bool * list entry) :=
  ls <- to_links t;
  x <- get_ti t;
  if existsb is_error_link ls then
    iterM (fun l => set_link_status E (ti_inst x) l (if is_error_link l then LTrue else LFalse)) ls ;;
    es <- entries_of (ti_inst x)
            (sort_entries ((fun l => (l, if is_error_link l then 0 else 4)) <$> ls));
    ret (true, es)
  else ret (false, []).

(** TaskDone of the flow behaviour, /repo/model/simple/flowbehavior.go:28-48: are all existing task
    instances done, skipped or failed. *)
Definition flow_task_done (i : nat) : M bool :=
  s <- get;
  x <- get_inst i;
  ret (forallb (fun p => match s_tis s !! p.2 with
                         | Some y => (TDone <=? ti_status y)%Z
                         | None => true
                         end) (map_to_list (i_tasks x))).

(** getFlowTaskEntries with leadingOnly, /repo/model/simple/flowbehavior.go:55-69; used by Start
    (13-15) and StartErrorHandler (18-20). *)
Definition leading (tk : task) : bool := match t_from tk with [] => true | _ => false end.
(** The entries, /repo/model/simple/flowbehavior.go:55-69: enter code 0. *)
Definition start_entries (ts : list task) : list entry :=
  (fun tk => (tk, 0)) <$> List.filter leading ts.
