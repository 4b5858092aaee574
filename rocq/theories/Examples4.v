(** Concrete flows for the theorems about values. *)
From Verif Require Import Isolation Collect.
From Verif Require Export Examples2.
Local Open Scope Z_scope.

(** No dot, by computation (test data). *)
Fixpoint no_dot (a : string) : bool :=
  match a with "" => true | String c a' => negb (bool_decide (c = "."%char)) && no_dot a' end.
Lemma no_dot_ok a : no_dot a = true -> dotless a.
Proof.
  intros H p q ->. induction p as [|c p IH]; [done|]. cbn [String.append no_dot] in H. apply andb_true_iff in H as [_ H]. by apply IH.
Qed.
Lemma dotless_check d : forallb (fun tk => no_dot (t_id tk)) (all_tasks d) = true -> dotless_flow d.
Proof. intros H tk Htk. rewrite forallb_forall in H. apply no_dot_ok, H. by apply elem_of_list_In. Qed.
Lemma env1_dotless a : dotless_env (env1 a).
Proof. done. Qed.
Lemma env1_unscoped a k : (forall n v, ~ act_scope k (a n v)) -> ~ scoped (env1 a) k.
Proof. intros H (j & v & [Hs|(a' & Ha & _)]); [by eapply H|done]. Qed.

(** An activity whose output is the element of the iteration (test data). *)
Definition act_echo : nat -> view -> act := fun _ v =>
  AOut "o" (match v_wd v !! "iteration" with Some (WIteration _ e _) => e | _ => VStr (v_task v) end) (AEnd ADone).
(** An iterator that collects its outputs, and a task beside it (test data). *)
Definition acc_flow : defn :=
  flow_of "f" [trs "a" "iterator" {["iterate" := VArr [VStr "x"; VStr "y"]; "accumulate" := VBool true]}; tr "c"] [] None None.
Definition env_echo : env := set_e_toarr (fun v => match v with VArr l => Some l | _ => None end) (env1 act_echo).

(** From a state to the one some steps later, none of them with task [a] of flow [i], by computation. *)
Fixpoint idle_steps (E : env) (i : nat) (a : string) (n : nat) (s : st) : bool :=
  match n with
  | O => true
  | S n' =>
      match s_queue s with
      | [] => true
      | (_, t) :: _ => match s_tis s !! t with Some x => negb (bool_decide (ti_inst x = i) && bool_decide (t_id (ti_task x) = a)) | None => true end
      end && idle_steps E i a n' (do_step E s).2
  end.
Lemma idle_meanwhile E i a n s0 s : meanwhile E i a s0 s -> idle_steps E i a n s = true -> meanwhile E i a s0 (after E n s).
Proof.
  revert s. induction n as [|n IH]; intros s H; cbn [idle_steps after]; [done|]. intros [H1 H2]%andb_true_iff.
  apply IH; [|done]. apply mw_step; [done|]. intros w t q x Hq Hx. rewrite Hq, Hx in H1. apply negb_true_iff, andb_false_iff in H1.
  by destruct H1 as [H1%bool_decide_eq_false|H1%bool_decide_eq_false]; [left|right].
Qed.
Lemma map_check {A} (m : gmap nat A) (p : nat -> A -> bool) u x :
  forallb (fun kv => p kv.1 kv.2) (map_to_list m) = true -> m !! u = Some x -> p u x = true.
Proof. intros H Hu%elem_of_map_to_list. rewrite forallb_forall in H. apply (H (u, x)). by apply elem_of_list_In. Qed.
