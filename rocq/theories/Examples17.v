(** Test data and checks for Props_Branch.v. Not part of the model; the values have no Go counterpart. *)
From Verif Require Export Branches Examples2 Examples3.
Local Open Scope Z_scope.

(** Two expressions that do not hold, and the otherwise link between them (test data). *)
Definition branch_flow : defn := flow_of "f" [tr "a"; tr "b"; tr "c"; tr "d"; tr "e"]
  [lexpr "a" "b" "false"; loth "a" "c"; lexpr "a" "d" "false"; ldep "c" "e"; ldep "d" "e"] None None.
(** Two otherwise links (test data). *)
Definition two_otherwise : defn := flow_of "f" [tr "a"; tr "b"; tr "c"; tr "d"] [lexpr "a" "b" "false"; loth "a" "c"; loth "a" "d"] None None.
(** An otherwise link without an expression link (test data). *)
Definition only_otherwise : defn := flow_of "f" [tr "a"; tr "b"] [loth "a" "b"] None None.
(** Everything comes after "a" (test data). *)
Definition after_a (_ : bool) (n : string) : nat := if String.eqb n "a" then 0%nat else 1%nat.
Lemma otherwise_lost :
  (exists E d uri ins tk, built d /\ acyclic d /\ sync_env true E /\ links_ok E /\ settings_ok E /\ e_icpt E = None /\ e_conc E = false /\
    tk ∈ d_tasks d /\ (fun l => (l_type l, l_to l)) <$> t_to tk = [(LtExpression, "b"); (LtExprOtherwise, "c"); (LtExprOtherwise, "d")] /\
    let s := (run_flow E ro0 d uri ins).2 in
    (run_flow E ro0 d uri ins).1 = Ok tt /\ main_status s = Some FCompleted /\ (Spec.link_values 0 (trace s)).*2 = [false] /\ evaluations s = [(0, t_id tk); (0, "d")]%nat) /\
  (exists E d uri ins tk, built d /\ acyclic d /\ sync_env true E /\ links_ok E /\ settings_ok E /\ e_icpt E = None /\ e_conc E = false /\
    tk ∈ d_tasks d /\ (fun l => (l_type l, l_to l)) <$> t_to tk = [(LtExprOtherwise, "b")] /\
    let s := (run_flow E ro0 d uri ins).2 in
    (run_flow E ro0 d uri ins).1 = Ok tt /\ main_status s = Some FCompleted /\ Spec.link_values 0 (trace s) = [] /\ evaluations s = [(0, t_id tk)]%nat).
Proof.
  split.
  - destruct (head (d_tasks two_otherwise)) as [tk|] eqn:Hh; [|by vm_compute in Hh].
    exists (env1 act_ok), two_otherwise, "u", ∅, tk. vm_compute in Hh. injection Hh as <-. do 7 (split; [side after_a|]). split; [left|]. cbv zeta. split_and!; ev.
  - destruct (head (d_tasks only_otherwise)) as [tk|] eqn:Hh; [|by vm_compute in Hh].
    exists (env1 act_ok), only_otherwise, "u", ∅, tk. vm_compute in Hh. injection Hh as <-. do 7 (split; [side after_a|]). split; [left|]. cbv zeta. split_and!; ev.
Qed.
