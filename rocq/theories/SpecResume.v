(** Words used in the statements about resumed runs. No Go counterpart. *)
From Verif Require Export Spec Resume.
Local Open Scope Z_scope.

(** The options of one run that takes as many steps as the run [ro] and the resumed run [ro'] together. *)
Definition ro_both (ro ro' : run_opts) : run_opts :=
  mk_ro (ro_init ro) (ro_retid ro) (ro_detach ro) (ro_event ro) (ro_max ro + (ro_max ro' - first_count ro')).
