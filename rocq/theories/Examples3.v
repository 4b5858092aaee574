(** Examples of acyclic flows. *)
From Verif Require Export SpecFlow Examples2.
Local Open Scope Z_scope.

(** A branch where one side fails into an error link, a join, and an error handler (test data). *)
Definition branches : defn :=
  flow_of "f" [tr "a"; tr "b"; tr "c"; tr "d"; tr "e"]
    [lexpr "a" "c" "false"; loth "a" "b"; ldep "b" "d"; ldep "c" "d"; lerr "b" "e"] (Some ([tr "h"; tr "k"], [ldep "h" "k"])) None.
(** How far from the start a task is (test data). *)
Definition depth (_ : bool) (id : string) : nat :=
  match id with "a" | "h" => 0 | "b" | "c" => 1 | _ => 2 end%nat.

(** Links that leave the same task lead equally deep or the later one less deep, and to different tasks. *)
Fixpoint shortcut_check (rank : string -> nat) (ls : list link) : bool :=
  match ls with
  | [] => true
  | l :: ls' => forallb (fun l' => bool_decide (l_from l = l_from l' -> l_to l <> l_to l' /\ (rank (l_to l') <= rank (l_to l))%nat)) ls' && shortcut_check rank ls'
  end.
Lemma rank_rtc d rank a b : (forall l, l ∈ all_links d -> (rank (l_from l) < rank (l_to l))%nat) -> rtc (edge d) a b -> a = b \/ (rank a.2 < rank b.2)%nat.
Proof.
  intros H. induction 1 as [a|a b c (l & Hl & _ & H1 & _ & H2) _ IH]; [by left|]. right. specialize (H l Hl). rewrite H1, H2 in H.
  destruct IH as [<-|IH]; lia.
Qed.
Lemma shortcut_check_ok d rank : forallb (fun l => (rank (l_from l) <? rank (l_to l))%nat) (all_links d) = true ->
  shortcut_check rank (d_links d) = true -> no_shortcut d.
Proof.
  intros Hr Hc a l1 b l2 c He Hf Hp.
  assert (forall l, l ∈ all_links d -> (rank (l_from l) < rank (l_to l))%nat) as Hrank.
  { intros l Hl. rewrite forallb_forall in Hr. apply Nat.ltb_lt, Hr. by apply elem_of_list_In. }
  apply (rank_rtc d rank _ _ Hrank) in Hp. cbn in Hp.
  assert (l_to l1 <> l_to l2 /\ (rank (l_to l2) <= rank (l_to l1))%nat) as [H1 H2].
  { rewrite He in Hc. clear He. induction a as [|l a IH]; cbn in Hc; apply andb_true_iff in Hc as [Hc Hc2]; [|by apply IH].
    rewrite forallb_forall in Hc. specialize (Hc l2). apply bool_decide_eq_true in Hc; [by apply Hc|].
    apply elem_of_list_In. set_solver. }
  destruct Hp as [[=]|Hp]; [done|lia].
Qed.
Lemma branches_simple : simple_flow branches.
Proof.
  split_and!; [side depth|side depth|side depth|]. apply (shortcut_check_ok _ (depth false)); ev.
Qed.
Lemma env1_orderly a : orderly (env1 a).
Proof. split_and!; [done|apply env1_settings|apply env1_cov|apply env1_links|done]. Qed.
Lemma all_check {A} (P : A -> Prop) (l : list A) : Forall P l -> forall a, a ∈ l -> P a.
Proof. intros H. by apply Forall_forall. Qed.
(** All tasks have an activity and no loop. *)
Definition smooth_check (d : defn) : bool :=
  forallb (fun tk => match t_act tk, t_loop tk with Some _, None => true | _, _ => false end) (d_tasks d).
Lemma plain_smooth a d : smooth_check d = true -> forall tk, tk ∈ d_tasks d -> smooth (env1 a) tk.
Proof.
  intros H tk Htk. unfold smooth_check in H. rewrite forallb_forall in H. apply elem_of_list_In in Htk. specialize (H tk Htk).
  destruct (t_act tk) as [c|] eqn:Hc; [|done]. destruct (t_loop tk) eqn:Hl; [done|]. apply env1_smooth; [by rewrite Hc; eexists|done].
Qed.
(** Tasks that have no error link are not among those that fail. *)
Definition handled_check (bad : list string) (d : defn) : bool :=
  forallb (fun tk => existsb (fun l => bool_decide (l_type l = LtError)) (t_to tk) || bool_decide (t_id tk ∉ bad)) (d_tasks d).
Lemma handled_check_ok bad d : smooth_check d = true -> handled_check bad d = true -> failures_handled (env1 (act_fail bad)) d.
Proof.
  intros Hp Hc tk Htk Hn. split; [by apply (plain_smooth _ d)|]. intros n v Hv. change (e_act (env1 (act_fail bad)) n v) with (act_fail bad n v).
  unfold act_fail. rewrite Hv. unfold handled_check in Hc. rewrite forallb_forall in Hc. specialize (Hc tk). apply elem_of_list_In in Htk.
  specialize (Hc Htk). apply orb_true_iff in Hc as [Hc|Hc].
  - apply existsb_exists in Hc as (l & Hl & Ht). apply bool_decide_eq_true in Ht. apply elem_of_list_In in Hl. by destruct (Hn l Hl).
  - apply bool_decide_eq_true in Hc. by rewrite bool_decide_eq_false_2.
Qed.
Lemma branches_smooth a tk : tk ∈ d_tasks branches -> smooth (env1 a) tk.
Proof. apply plain_smooth. ev. Qed.
Lemma branches_handled : failures_handled (env1 (act_fail ["b"])) branches.
Proof. apply handled_check_ok; ev. Qed.
