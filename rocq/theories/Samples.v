(** Concrete flows and environments, used to show that the hypotheses of the theorems can be met
    and as witnesses for the behaviours the engine gets wrong. *)
From Verif Require Export RunLoop.
Local Open Scope Z_scope.

(** Library functions for building definitions: every expression compiles, coercions accept the
    obvious shapes (test data, no Go counterpart). *)
Definition b0 : benv := mk_benv
  (fun _ => true)
  (fun v => match v with VInt z => Some z | _ => None end)
  (fun v => match v with VBool b => b | _ => false end)
  (fun v => match v with VObj l => Some (list_to_map l) | _ => None end)
  (fun _ => None)
  (fun m => Some (bool_decide (is_Some (m !! "mapped"))))
  (fun _ r => Some (mk_act_cfg (ar_ref r) false (Some ["o"]) false)).

(** A task with an activity called like the task (test data). *)
Definition tr (id : string) : task_rep :=
  mk_task_rep id "" id ∅ (Some (mk_act_rep ("act." +:+ id) ∅ ∅)).
(** The same with a task type and settings (test data). *)
Definition trs (id ty : string) (m : vmap) : task_rep :=
  mk_task_rep id ty id m (Some (mk_act_rep ("act." +:+ id) ∅ ∅)).
(** Links (test data). *)
Definition ldep (a b : string) : link_rep := mk_link_rep "" "" b a "" "".
Definition lexpr (a b e : string) : link_rep := mk_link_rep "expression" "" b a "" e.
Definition lerr (a b : string) : link_rep := mk_link_rep "error" "" b a "" "".
Definition loth (a b : string) : link_rep := mk_link_rep "exprOtherwise" "" b a "" "".
Definition llab (a b : string) : link_rep := mk_link_rep "label" "" b a "l" "".

(** A flow of tasks and links, without and with an error handler (test data). *)
Definition flow_of (name : string) (ts : list task_rep) (ls : list link_rep)
    (eh : option (list task_rep * list link_rep)) (md : option flow_md) : defn :=
  match new_definition b0 (mk_def_rep false name "" md ts ls eh) with
  | BOk d => d
  | BErr _ => mk_defn "" "" false None [] [] None
  end.

(** The environment of the examples: activities are chosen by [a], expressions "true"/"false" have
    their obvious value, "err" fails and "panic" panics (test data). *)
Definition env0 (a : nat -> view -> act) : env := mk_env
  a
  (fun _ _ => None)
  (fun _ _ l => match l_expr l with
                | Some "true" => XOk true
                | Some "err" => XErr (EOther "bad expression")
                | Some "panic" => XPanic "boom"
                | _ => XOk false end)
  (fun _ _ _ => XOk (VBool false))
  (fun _ _ _ => XOk (VInt 3))
  (fun _ _ _ => XOk 2)
  (fun _ _ => XOk ∅)
  (fun _ _ => XOk ∅)
  (fun _ _ => None)
  (fun _ _ => None)
  (fun v => match v with VInt z => Some z | _ => None end)
  (fun v => match v with VArr l => Some l | _ => None end)
  (fun _ _ _ v => Some v)
  (fun _ _ => XOk true)
  (fun _ _ => DNil)
  "main" "app" "1.0"
  false false false false (Some RMOff) false false None.

(** Every activity succeeds and sets output "o" (test data). *)
Definition act_ok : nat -> view -> act := fun _ v => AOut "o" (VStr (v_task v)) (AEnd ADone).
(** As above, but the named tasks fail (test data). *)
Definition act_fail (l : list string) : nat -> view -> act := fun n v =>
  if bool_decide (v_task v ∈ l) then AEnd (AErr (EAct "failed" "42" VNil false "")) else act_ok n v.

(** Normal options: up to 1000 steps (test data). *)
Definition ro0 : run_opts := mk_ro 0 false false "" 1000.
