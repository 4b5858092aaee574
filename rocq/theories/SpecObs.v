(** What the theorem about observers says: a small specification. No Go counterpart. *)
From Verif Require Export Spec.

(** The environment with a listener or not, with these recorder settings. *)
Definition observing (listener : bool) (rec : option recmode) (recorder track : bool) (E : env) : env :=
  set_e_listener listener (set_e_rec rec (set_e_ext recorder (set_e_track track E))).
(** RecordState does not panic: there is a recorder, or nothing is to be recorded. *)
Definition recordable (E : env) : Prop :=
  exists m, e_rec E = Some m /\ (e_ext E = true \/ (record_snapshot m = false /\ record_steps m = false)).

(** The flow declares no outputs. *)
Definition no_outputs (d : defn) : Prop := forall md, d_md d = Some md -> md_out md = None.

(** Flow [i] has returned data, and neither it nor anyone else returned or replied nothing since. *)
Definition nil_result (i : nat) (ev : event) : Prop :=
  match ev with EvReturn j None _ => j = i | EvResult None _ => True | _ => False end.
Definition has_returned (i : nat) (l : list event) : Prop :=
  exists a d e b, l = a ++ EvReturn i (Some d) e :: b /\ Forall (fun ev => ~ nil_result i ev) b.

(** Every flow that completed declares no outputs or has returned data before. *)
Definition all_return (s : st) : Prop :=
  (forall i y l1 l2, i <> 0%nat -> trace s = l1 ++ EvFlowStatus i FCompleted :: l2 -> s_insts s !! i = Some y ->
     no_outputs (i_def y) \/ has_returned i l1) /\
  (main_status s = Some FCompleted -> forall y, s_insts s !! 0%nat = Some y -> no_outputs (i_def y) \/ has_returned 0 (trace s)).
