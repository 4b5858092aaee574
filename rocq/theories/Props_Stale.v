(** Outputs of earlier rounds. *)
From Verif Require Import Examples20.
Local Open Scope Z_scope.

(** C19, if the output object of an iteration is what its activity sets in that iteration: false. The activity sets an output for the first element and none for
    the second; the list has the output of the first twice. ([C19_accumulated] is about the outputs the task has after an iteration.) *)
Theorem C19_stale_refuted : exists E d uri ins, built d /\ sync_env true E /\ e_icpt E = None /\ (forall a, e_toarr E (VArr a) = Some a) /\
  (forall n v k el z, v_wd v !! "iteration" = Some (WIteration k el z) -> el <> VStr "x" -> e_act E n v = AEnd ADone) /\
  let s := (run_flow E ro0 d uri ins).2 in
  main_status s = Some FCompleted /\
  (fun c => match c.2 with Some (WIteration _ el _) => Some el | _ => None end) <$> calls 0 "a" (trace s) = [Some (VStr "x"); Some (VStr "y")] /\
  attr_of s 0 (all_key "a") = Some (VArr [VObj [("o", VStr "x")]; VObj [("o", VStr "x")]]).
Proof. exact stale_outputs. Qed.
Print Assumptions C19_stale_refuted.
