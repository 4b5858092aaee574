(** Vocabulary for the absence of crashes. No Go counterpart (specification). *)
From Verif Require Export SpecSub.

(** The tasks a section starts with, those without an incoming link, have an activity. *)
Definition starts_acting (ts : list task) : Prop := forall tk, tk ∈ ts -> t_from tk = [] -> t_act tk <> None.
Definition handler_acting (d : defn) : Prop := forall h, d_eh d = Some h -> starts_acting (eh_tasks h).
(** Settings mappers may fail but do not panic. *)
Definition settings_calm (E : env) : Prop := forall n v m, e_setmap E n v <> XPanic m.
(** Nor do the assertions of a test. *)
Definition asserts_calm (E : env) : Prop := forall n v m, e_assert E n v <> XPanic m.

(** The next step executes task instance [t] (contents [x]), and the evaluation of its behaviour, or what is done with the result, panics with [m]
    and leaves the state [s1]. *)
Definition panics (E : env) (s : st) (t : nat) (x : tinst) (m : string) (s1 : st) : Prop :=
  main_status s = Some FActive /\ s_tis s !! t = Some x /\
  exists w q, s_queue s = (w, t) :: q /\
    exec_body E t (set_s_log (EvQDel w (ti_inst x) (t_id (ti_task x)) :: s_log s)
      (set_s_queue q (set_s_step (S (s_step s)) s))) = (Panic m, s1).
(** How a panic is reported. *)
Definition panic_text (x : tinst) (m : string) : string := "unhandled Error executing task '" +:+ t_id (ti_task x) +:+ "' : " +:+ m.
