(** The vocabulary of the statements about whole runs of a flow. Nothing here is used by the model. No
    Go counterpart. *)
From Verif Require Export Spec.
Local Open Scope Z_scope.

(** No subflow can be started: the outside world knows none. *)
Definition no_subflows (E : env) : Prop := forall n uri d, e_def E n uri <> DOk d.

(** Of two links that leave the same task, the one listed later does not lead to the target of the
    earlier one or to a task behind it. *)
Definition no_shortcut (d : defn) : Prop :=
  forall a l1 b l2 c, d_links d = a ++ l1 :: b ++ l2 :: c -> l_from l1 = l_from l2 ->
    ~ rtc (edge d) (false, l_to l1) (false, l_to l2).

(** A task, a link of the main flow was given this status in the course of the run. *)
Definition task_got (s : st) (id : string) (z : Z) : Prop := EvTaskUpd 0 id z ∈ trace s.
Definition link_got (s : st) (l : link) (z : Z) : Prop := EvLinkSet 0 (l_id l) z ∈ trace s.
(** The expression of a link of the main flow gave this value. *)
Definition link_gave (s : st) (l : link) (b : bool) : Prop := EvLinkEval 0 (l_id l) b ∈ trace s.

(** The status a task ends with, given the outcome of its activity. *)
Definition ended (o : option err) : Z := match o with None => TDone | Some _ => TFailed end.

(** How a link is decided when its source ends with status [z], given the values of the expressions. *)
Definition fate (z : Z) (ls : list link) (v : nat -> bool) (l : link) : Z :=
  if decide (z = TSkipped) then LSkipped
  else if decide (z = TFailed) then (if is_type LtError l then LTrue else LFalse)
  else if followed ls v l then LTrue else LFalse.

(** The activity of the task never fails, and nothing else makes the evaluation of the task fail. *)
Definition never_fails (E : env) (tk : task) : Prop :=
  smooth E tk /\ forall n v, v_task v = t_id tk -> act_sync true (e_act E n v).

(** The activity does not end the flow by Return. *)
Fixpoint act_noret (a : act) : Prop :=
  match a with
  | AEnd _ => True
  | AReturn _ _ _ => False
  | AOut _ _ k | AOuts _ k | AScope _ _ k | AReply _ _ k => act_noret k
  | AStart _ _ k1 k2 => act_noret k1 /\ act_noret k2
  end.
Definition no_return (E : env) : Prop := forall n v, act_noret (e_act E n v).

(** The activity of the task was called and came back with this outcome. *)
Definition act_gave (s : st) (id : string) (o : option err) : Prop := EvActEnd 0 id o ∈ trace s.

(** The task is a start task or a link into it was followed. *)
Definition reached (s : st) (tk : task) : Prop := t_from tk = [] \/ exists l, l ∈ t_from tk /\ link_got s l LTrue.

(** The task of the main flow [d] ended with status [z] in the run that led to [s]: *)
Record task_story (d : defn) (s : st) (tk : task) (z : Z) : Prop := mk_story {
  (** that is its only final status; *)
  ts_ends : ends z;
  ts_only : forall z', ends z' -> task_got s (t_id tk) z' <-> z' = z;
  (** it was skipped iff it was not reached, and evaluated iff it was not skipped; *)
  ts_skipped : z = TSkipped <-> ~ reached s tk;
  ts_evaluated : (0%nat, t_id tk) ∈ evaluations s <-> z <> TSkipped;
  (** it is done if its activity succeeded, failed if its activity failed; *)
  ts_outcome : forall o, act_gave s (t_id tk) o -> z = ended o;
  ts_called : z <> TSkipped -> exists o, act_gave s (t_id tk) o;
  (** its links were decided as [fate] says, by the values their expressions gave. *)
  ts_links : exists v,
    (z = TDone -> forall l, l ∈ t_to tk -> l_type l = LtExpression -> forall b, link_gave s l b <-> b = v (l_id l)) /\
    forall l, l ∈ t_to tk -> (link_got s l LTrue <-> fate z (t_to tk) v l = LTrue) /\ (link_got s l LSkipped <-> z = TSkipped)
}.

(** An acyclic flow of plain tasks without shortcuts. *)
Definition simple_flow (d : defn) : Prop :=
  built d /\ acyclic d /\ plain_tasks d /\ no_shortcut d.

(** One task at a time; nothing fails but activities, mappers and schema checks; no subflows. *)
Definition orderly (E : env) : Prop :=
  e_conc E = false /\ settings_ok E /\ cov_ok E /\ links_ok E /\ no_subflows E.

(** The activities of tasks without error link succeed. *)
Definition failures_handled (E : env) (d : defn) : Prop :=
  forall tk, tk ∈ d_tasks d -> no_error_link tk -> never_fails E tk.

(** The error handler of the flow is not started: there is none, or every task that can fail has an
    error link. *)
Definition no_takeover (E : env) (d : defn) : Prop := d_eh d = None \/ failures_handled E d.

(** Each task was either evaluated once and not skipped, or skipped and not evaluated. *)
Definition once_or_skipped (s : st) (tk : task) : Prop :=
  ((exists r1 r2, evaluations s = r1 ++ (0%nat, t_id tk) :: r2 /\ (0%nat, t_id tk) ∉ r1 /\ (0%nat, t_id tk) ∉ r2) /\
    ~ task_got s (t_id tk) TSkipped) \/
  ((0%nat, t_id tk) ∉ evaluations s /\ task_got s (t_id tk) TSkipped).
