(** Values, errors and constants shared by the whole model.
    Source: project-flogo/flow, /repo. *)
From Coq Require Export Ascii.
From stdpp Require Export strings gmap list numbers.

#[global] Open Scope Z_scope.
#[global] Set Default Proof Using "Type".

(** Go [interface{}] data that flows through attributes, inputs and outputs
    (JSON-like data: /repo/instance/instance.go:35 attrs, /repo/instance/taskinst.go:69-71).
    Simplification: int/int64/float64 are merged into [VInt] (integers), since no modelled
    code looks at the difference except iteratorbehavior.go:76-82, which converts all of them
    to [int]. The list order of [VObj] stands for the (arbitrary) Go map iteration order.
    [VOther n] is any other Go value (channels, structs, ...). *)
Inductive val :=
  | VNil
  | VBool (b : bool)
  | VInt (z : Z)
  | VStr (s : string)
  | VArr (l : list val)
  | VObj (l : list (string * val))
  | VOther (n : Z).

(** Go [map[string]interface{}], e.g. attrs, /repo/instance/instance.go:34. *)
Notation vmap := (gmap string val).

(** Go [error] values, as far as /repo/instance/taskinst.go:372-375 and /repo/instance/ind_instance.go:838-858 tell them apart. *)
Inductive err :=
  (** *activity.Error (core), /repo/instance/taskinst.go:372,567 : message, code, data,
      retriable flag, activity name *)
  | EAct (msg code : string) (data : val) (retriable : bool) (actname : string)
  (** *ActivityEvalError, /repo/instance/ind_instance.go:838-858 *)
  | EEval (task typ text : string)
  (** *definition.LinkExprError, /repo/definition/expr.go:17-28 *)
  | ELink (msg : string)
  (** any other error, with its Error() text *)
  | EOther (msg : string).

(** [err.Error()]; ActivityEvalError: /repo/instance/ind_instance.go:856-858. *)
Definition err_text (e : err) : string :=
  match e with
  | EAct m _ _ _ _ => m
  | EEval _ _ t => t
  | ELink m => m
  | EOther m => m
  end.

(** Link types, /repo/definition/definition.go:428-445. *)
Inductive linktype := LtDependency | LtExpression | LtLabel | LtError | LtExprOtherwise.

(** Task types of the simple model, /repo/model/simple/model.go:15-22 ("" is the default
    behaviour, i.e. basic: /repo/model/model.go:64-72). *)
Inductive tasktype := TBasic | TIterator | TDoWhile.

(** FlowStatus, /repo/model/status.go:7-21. *)
Definition FNotStarted : Z := 0.
(** FlowStatusActive, /repo/model/status.go:12. *)
Definition FActive : Z := 100.
(** FlowStatusCompleted, /repo/model/status.go:15. *)
Definition FCompleted : Z := 500.
(** FlowStatusCancelled, /repo/model/status.go:18. *)
Definition FCancelled : Z := 600.
(** FlowStatusFailed, /repo/model/status.go:21. *)
Definition FFailed : Z := 700.

(** TaskStatus, /repo/model/status.go:23-42. *)
Definition TNotStarted : Z := 0.
(** TaskStatusEntered, /repo/model/status.go:27. *)
Definition TEntered : Z := 10.
(** TaskStatusReady, /repo/model/status.go:30. *)
Definition TReady : Z := 20.
(** TaskStatusWaiting, /repo/model/status.go:33. *)
Definition TWaiting : Z := 30.
(** TaskStatusDone, /repo/model/status.go:36. *)
Definition TDone : Z := 40.
(** TaskStatusSkipped, /repo/model/status.go:39. *)
Definition TSkipped : Z := 50.
(** TaskStatusFailed, /repo/model/status.go:42. *)
Definition TFailed : Z := 100.

(** LinkStatus, /repo/model/status.go:44-51 (a fresh LinkInst has the zero value). *)
Definition LUnset : Z := 0.
(** LinkStatusFalse, /repo/model/status.go:45. *)
Definition LFalse : Z := 1.
(** LinkStatusTrue, /repo/model/status.go:48. *)
Definition LTrue : Z := 2.
(** LinkStatusSkipped, /repo/model/status.go:51. *)
Definition LSkipped : Z := 3.

(** Go == on link types, e.g. /repo/model/simple/taskbehavior.go:370. *)
#[global] Instance linktype_eq_dec : EqDecision linktype.
Proof. solve_decision. Defined.
(** Comparison of task types (used by statements and examples; the type names are the cases of /repo/model/simple/model.go:15-22). *)
#[global] Instance tasktype_eq_dec : EqDecision tasktype.
Proof. solve_decision. Defined.
(** Equality of values is decidable (no Go counterpart; used by examples). *)
Fixpoint val_dec (x y : val) {struct x} : {x = y} + {x <> y}.
Proof.
  refine (match x, y with
          | VNil, VNil => left _
          | VBool a, VBool b => if decide (a = b) then left _ else right _
          | VInt a, VInt b => if decide (a = b) then left _ else right _
          | VStr a, VStr b => if decide (a = b) then left _ else right _
          | VOther a, VOther b => if decide (a = b) then left _ else right _
          | VArr a, VArr b => if @list_eq_dec val val_dec a b then left _ else right _
          | VObj a, VObj b => if @list_eq_dec _ (@prod_eq_dec string _ val val_dec) a b then left _ else right _
          | _, _ => right _
          end); congruence.
Defined.
(** The same as an instance (no Go counterpart; used by examples). *)
#[global] Instance val_eq_dec : EqDecision val := val_dec.
