(** Test data and checks for Props_Waits.v. Not part of the model; the values have no Go counterpart. *)
From Verif Require Export Asleep NoHandler Examples2 Examples3 Examples10.
From Verif Require Import Findings.
Local Open Scope Z_scope.

(** "a" waits (test data). *)
Definition act_waits (_ : nat) (v : view) : act := if String.eqb (v_task v) "a" then AEnd AWait else AEnd ADone.
Definition none_waits_b (s : st) : bool := forallb (fun p => negb (Z.eqb (ti_status p.2) TWaiting)) (map_to_list (s_tis s)).
Lemma none_waits_ok s : none_waits_b s = true -> forall t x, s_tis s !! t = Some x -> ti_status x <> TWaiting.
Proof.
  unfold none_waits_b. rewrite forallb_forall. intros H t x Hx He. specialize (H (t, x)). cbn in H. rewrite He in H.
  assert (negb (TWaiting =? TWaiting) = true) as Hn; [|done]. apply H, elem_of_list_In, elem_of_map_to_list, Hx.
Qed.
(** The run returns, the flow is active, nothing is queued, nobody is waited for. *)
Lemma waits_for_nobody : exists E ro d uri ins, built d /\ acyclic d /\ no_parallel d /\ plain_tasks d /\ d_tasks d <> [] /\
  d_eh d = None /\ sync_env true E /\ links_ok E /\ settings_ok E /\ mappers_ok E /\ e_icpt E = None /\ e_conc E = false /\
  (run_flow E ro d uri ins).1 = Ok tt /\ main_status (run_flow E ro d uri ins).2 = Some FActive /\
  Z.of_nat (s_step (run_flow E ro d uri ins).2) < ro_max ro - first_count ro /\ delivered (run_flow E ro d uri ins).2 = [] /\
  forall t x, s_tis (run_flow E ro d uri ins).2 !! t = Some x -> ti_status x <> TWaiting.
Proof.
  exists (env1 act_ok), ro0, shortcut_stall, "u", ∅. do 12 (split; [side rank_p|]). split; [ev|]. split; [ev|]. split; [ev|]. split; [ev|].
  apply none_waits_ok. ev.
Qed.
