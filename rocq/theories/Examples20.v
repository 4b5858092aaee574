(** Test data and checks for Props_Stale.v. Not part of the model; the values have no Go counterpart. *)
From Verif Require Export SpecVal Examples4.
Local Open Scope Z_scope.

(** Sets the output "o" to the element, but only for element "x" (test data). *)
Definition act_first (_ : nat) (v : view) : act :=
  match v_wd v !! "iteration" with Some (WIteration _ el _) => if bool_decide (el = VStr "x") then AOut "o" (VStr "x") (AEnd ADone) else AEnd ADone | _ => AEnd ADone end.
Definition env_first : env := set_e_toarr (fun v => match v with VArr l => Some l | _ => None end) (env1 act_first).
Lemma stale_outputs : exists E d uri ins, built d /\ sync_env true E /\ e_icpt E = None /\ (forall a, e_toarr E (VArr a) = Some a) /\
  (forall n v k el z, v_wd v !! "iteration" = Some (WIteration k el z) -> el <> VStr "x" -> e_act E n v = AEnd ADone) /\
  let s := (run_flow E ro0 d uri ins).2 in
  main_status s = Some FCompleted /\
  (fun c => match c.2 with Some (WIteration _ el _) => Some el | _ => None end) <$> calls 0 "a" (trace s) = [Some (VStr "x"); Some (VStr "y")] /\
  attr_of s 0 (all_key "a") = Some (VArr [VObj [("o", VStr "x")]; VObj [("o", VStr "x")]]).
Proof.
  exists env_first, acc_flow, "u", ∅. split; [apply flow_of_built; ev|]. split.
  { intros n v. cbn. unfold act_first. destruct (v_wd v !! "iteration") as [[]|]; try constructor. destruct (bool_decide _); repeat constructor. }
  split; [done|]. split; [done|]. split.
  { intros n v k el z Hv Hn. cbn. unfold act_first. rewrite Hv. by rewrite bool_decide_false. }
  cbv zeta. split_and!; ev.
Qed.
