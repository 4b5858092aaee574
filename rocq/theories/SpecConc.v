(** What the theorems about concurrent execution say: a small specification. No Go counterpart. *)
From Verif Require Export Conc.

(** How often task instance [t] occurs in a list of work items. *)
Definition times (t : nat) (q : list (nat * nat)) : nat :=
  length (filter (fun p : nat * nat => p.2 = t) q).

(** Task instances that are legitimately scheduled again: those that have started a subflow (when it
    ends they are resumed) and those of looping tasks. *)
Definition hosting (s : st) (t : nat) : Prop := exists j y, s_insts s !! j = Some y /\ i_host y = Some t.
Definition looping (s : st) (t : nat) : Prop := exists x, s_tis s !! t = Some x /\ t_type (ti_task x) <> TBasic.

(** Nothing is left to do: no goroutine can proceed and the loop finds no work item. *)
Definition quiescent (c : conc) : Prop :=
  Forall (fun th => th = ThEnd) (c_threads c) /\ s_queue (c_st c) = [].
