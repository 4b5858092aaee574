(** Witnesses and examples for concurrent execution. *)
From Verif Require Export ConcProofs Findings2 Examples.
Local Open Scope Z_scope.

(** Two branches that meet again, with a task behind the join. *)
Definition join_flow : defn :=
  flow_of "f" [tr "a"; tr "b"; tr "c"; tr "d"; tr "e"]
    [ldep "a" "b"; ldep "a" "c"; ldep "b" "d"; ldep "c" "d"; ldep "d" "e"] None None.
(** All activities succeed, tasks run on goroutines. *)
Definition env_conc : env := set_e_conc true (env1 act_ok).
Definition all4 (k : nat) : list turn := [Go k; Go k; Go k; Go k].

(** Both branches have decided their links before either enters the join; the first one to do so
    schedules it, it runs and is released before the second one enters it. *)
Definition late_enter : list turn :=
  [Loop] ++ all4 0 ++ [Loop; Loop; Go 1; Go 2; Go 1; Go 2; Go 1; Loop] ++ all4 3 ++ [Go 2; Go 1; Go 2; Loop] ++ all4 4.
(** The second branch enters the join while it is queued. *)
Definition early_enter : list turn :=
  [Loop] ++ all4 0 ++ [Loop; Loop; Go 1; Go 2; Go 1; Go 2; Go 1; Go 2; Loop] ++ all4 3 ++ [Go 1; Go 2; Loop] ++ all4 4.
(** One task at a time. *)
Definition one_by_one : list turn := [Loop] ++ all4 0 ++ [Loop] ++ all4 1 ++ [Loop] ++ all4 2 ++ [Loop] ++ all4 3 ++ [Loop] ++ all4 4.

(** Nothing happens any more. *)
Lemma quiescent_stays E chs c : quiescent c -> conc_run E chs c = c.
Proof.
  intros [Ht Hq]. revert Ht. induction chs as [|ch chs IH]; intros Ht; [done|]. cbn [conc_run fold_left].
  assert (Hs : conc_step E ch c = c).
  { destruct ch as [|k]; cbn [conc_step].
    - unfold take_item. destruct (s_insts (c_st c) !! 0%nat); [|done]. by rewrite Hq; destruct (bool_decide _).
    - unfold advance. destruct (c_threads c !! k) as [th|] eqn:Hk; [|done].
      assert (th = ThEnd) as -> by (eapply Forall_lookup_1 in Ht; eauto). cbn. destruct c as [s l q]. cbn in *. by rewrite list_insert_id. }
  rewrite Hs. by apply IH.
Qed.
Definition quiescent_b (c : conc) : bool :=
  forallb (fun th => match th with ThEnd => true | _ => false end) (c_threads c) && bool_decide (s_queue (c_st c) = []).
Lemma quiescent_check c : quiescent_b c = true -> quiescent c.
Proof.
  intros [H1 H2]%andb_true_iff. split; [|by apply bool_decide_eq_true in H2].
  apply Forall_forall. intros th Hin. rewrite forallb_forall in H1. specialize (H1 th ltac:(by apply elem_of_list_In)). by destruct th.
Qed.

Lemma join_left_behind :
  exists E d uri ins chs, built d /\ acyclic d /\ no_parallel d /\ plain_tasks d /\ d_eh d = None /\
    sync_env true E /\ links_ok E /\ settings_ok E /\ mappers_ok E /\ e_icpt E = None /\ e_conc E = true /\
    (let c := conc_run E chs (conc_start E d uri ins) in
     quiescent c /\ (forall chs', conc_run E chs' c = c) /\ main_status (c_st c) = Some FActive /\
     evaluations (c_st c) = [(0, "a"); (0, "b"); (0, "c"); (0, "d"); (0, "e")]%nat /\
     exists y t x, s_insts (c_st c) !! 0%nat = Some y /\ i_tasks y !! "d" = Some t /\
       s_tis (c_st c) !! t = Some x /\ ti_status x = TEntered) /\
    (exists chs', let c' := conc_run E chs' (conc_start E d uri ins) in
     quiescent c' /\ main_status (c_st c') = Some FCompleted /\
     evaluations (c_st c') = [(0, "a"); (0, "b"); (0, "c"); (0, "d"); (0, "e")]%nat).
Proof.
  exists env_conc, join_flow, "u", ∅, late_enter.
  split_and!; [fact (fun (_ : bool) (x : string) => if String.eqb x "a" then 0%nat else if String.eqb x "d" then 2%nat else if String.eqb x "e" then 3%nat else 1%nat)..| |].
  - cbv zeta. set (c := conc_run _ _ _).
    assert (Hq : quiescent c) by (apply quiescent_check; ev).
    split; [exact Hq|]. split; [intros chs'; by apply quiescent_stays|]. split; [ev|]. split; [ev|].
    apply has_status_ok. ev.
  - exists one_by_one. cbv zeta. split; [apply quiescent_check; ev|]. split; ev.
Qed.

(** No task instance has started a subflow or belongs to a loop. *)
Definition no_exempt_b (s : st) : bool :=
  forallb (fun p => bool_decide (i_host (p.2) = None)) (map_to_list (s_insts s)) &&
  forallb (fun p => match t_type (ti_task (p.2)) with TBasic => true | _ => false end) (map_to_list (s_tis s)).
Lemma no_exempt_check s : no_exempt_b s = true -> forall t, ~ hosting s t /\ ~ looping s t.
Proof.
  intros [H1 H2]%andb_true_iff t. rewrite forallb_forall in H1, H2. split.
  - intros (j & y & Hy & Hh). specialize (H1 (j, y) ltac:(by apply elem_of_list_In, elem_of_map_to_list)).
    apply bool_decide_eq_true in H1. cbn in H1. congruence.
  - intros (x & Hx & Hh). specialize (H2 (t, x) ltac:(by apply elem_of_list_In, elem_of_map_to_list)). cbn in H2. by destruct (t_type (ti_task x)).
Qed.
Lemma ne_check {A} (l : list A) : (match l with [] => false | _ => true end) = true -> l <> [].
Proof. by destruct l. Qed.
Ltac ne := apply ne_check; ev.

Lemma sequential_runs E d uri ins n :
  e_conc E = true ->
  (forall k, (k < n)%nat -> main_status (after E k (started E d uri ins)) = Some FActive /\ s_queue (after E k (started E d uri ins)) <> []) ->
  exists chs, c_st (conc_run E chs (conc_start E d uri ins)) = after E n (started E d uri ins).
Proof.
  intros Hc H. apply sequential_run; [done|]. intros k Hk. cbv zeta. destruct (H k Hk) as [Hm Hq]. split; [|done].
  unfold main_status in Hm. apply fmap_Some in Hm as (y & Hy & Ha). eauto.
Qed.
