(** Witnesses for properties the engine does not have, and the lemmas about them. *)
From Verif Require Export Spec Samples.
Local Open Scope Z_scope.

(** ** General lemmas *)

(** With nothing queued a step only counts. *)
Lemma do_step_idle E s y :
  s_insts s !! 0%nat = Some y -> s_queue s = [] -> (do_step E s).2 = set_s_step (S (s_step s)) s.
Proof.
  intros Hy Hq. unfold do_step, bind, get_inst, modify, get.
  unfold bind. cbn [s_insts set_s_step]. rewrite Hy. cbv beta iota delta [ret].
  destruct (bool_decide (i_status y = FActive)); [|done]. cbn [s_queue set_s_step]. rewrite Hq. done.
Qed.

Lemma after_idle E n s y :
  s_insts s !! 0%nat = Some y -> s_queue s = [] ->
  s_log (after E n s) = s_log s /\ main_status (after E n s) = main_status s.
Proof.
  revert s. induction n as [|n IH]; intros s Hy Hq; [done|].
  simpl. rewrite (do_step_idle E s y Hy Hq).
  destruct (IH (set_s_step (S (s_step s)) s)) as [-> ->]; done.
Qed.

Lemma after_add E n m s : after E (n + m) s = after E m (after E n s).
Proof. revert s. induction n as [|n IH]; intros s; [done|]. simpl. apply IH. Qed.
Lemma after_S E n s : after E (S n) s = (do_step E (after E n s)).2.
Proof. replace (S n) with (n + 1)%nat by lia. rewrite after_add. done. Qed.

Definition idle_at (E : env) (k : nat) (s : st) : bool :=
  match s_queue (after E k s) with [] => true | _ => false end.
Definition never_completed (E : env) (k : nat) (s : st) : bool :=
  forallb (fun j => match main_status (after E j s) with Some z => negb (z =? FCompleted)%Z | None => true end)
    (seq 0 (S k)).

(** A run that has come to rest without completing never completes. *)
Lemma stuck_forever E s k :
  is_Some (main_status (after E k s)) -> idle_at E k s = true -> never_completed E k s = true ->
  forall n, main_status (after E n s) <> Some FCompleted.
Proof.
  intros [z Hz] Hi Hn n.
  assert (Hall : forall j, (j <= k)%nat -> main_status (after E j s) <> Some FCompleted).
  { intros j Hj Hs. unfold never_completed in Hn.
    rewrite forallb_forall in Hn. specialize (Hn j).
    rewrite Hs in Hn. discriminate Hn. apply in_seq. lia. }
  destruct (decide (n <= k)%nat) as [|Hnk]; [by apply Hall|].
  replace n with (k + (n - k))%nat by lia. rewrite after_add.
  unfold main_status in Hz. destruct (s_insts (after E k s) !! 0%nat) as [y|] eqn:Hy; [|done].
  destruct (after_idle E (n - k) (after E k s) y) as [_ ->]; [done| |by apply Hall].
  unfold idle_at in Hi. by destruct (s_queue (after E k s)).
Qed.

Lemma rank_check (d : defn) (rank : bool -> string -> nat) :
  forallb (fun l => (rank (l_eh l) (l_from l) <? rank (l_eh l) (l_to l))%nat) (all_links d) = true ->
  acyclic d.
Proof.
  intros H. exists rank. intros l Hl. rewrite forallb_forall in H.
  apply Nat.ltb_lt. apply H. by apply elem_of_list_In.
Qed.
Definition plain_check (d : defn) : bool :=
  forallb (fun tk => bool_decide (t_type tk = TBasic) &&
                     match t_retry tk with None => true | _ => false end &&
                     match t_act tk with None => false | _ => true end) (all_tasks d).
Lemma plain_check_ok d : plain_check d = true -> plain_tasks d.
Proof.
  intros H tk Htk. unfold plain_check in H. rewrite forallb_forall in H.
  apply elem_of_list_In in Htk. specialize (H tk Htk).
  apply andb_true_iff in H as [H H3]. apply andb_true_iff in H as [H1 H2].
  apply bool_decide_eq_true in H1. destruct (t_retry tk), (t_act tk); done.
Qed.
Lemma flow_of_built name ts ls eh md :
  (match new_definition b0 (mk_def_rep false name "" md ts ls eh) with BOk _ => true | _ => false end) = true ->
  built (flow_of name ts ls eh md).
Proof.
  intros H. unfold flow_of. exists b0, (mk_def_rep false name "" md ts ls eh).
  by destruct (new_definition b0 _).
Qed.

Lemma act_ok_sync b : forall n v, act_sync b (act_ok n v).
Proof. done. Qed.
Lemma act_fail_sync l : forall n v, act_sync false (act_fail l n v).
Proof. intros n v. unfold act_fail. destruct (bool_decide _); done. Qed.

(** The environment of the examples with link expressions that never fail. *)
Definition env1 (a : nat -> view -> act) : env :=
  set_e_link (fun _ _ l => XOk (bool_decide (l_expr l = Some "true"))) (env0 a).
Lemma env1_links a : links_ok (env1 a).
Proof. intros n v l. by eexists. Qed.
Lemma env1_settings a : settings_ok (env1 a).
Proof. intros n v. by eexists. Qed.
Lemma env1_mappers a : mappers_ok (env1 a).
Proof. split_and!; intros; [by eexists|done|done]. Qed.

(** Computation by the virtual machine. *)
Ltac ev := vm_compute; reflexivity.
Lemma is_some_check {A} (o : option A) :
  (match o with Some _ => true | None => false end) = true -> is_Some o.
Proof. destruct o; done. Qed.
(** Side conditions of the witnesses. *)
Ltac side rank :=
  lazymatch goal with
  | |- built _ => apply flow_of_built; ev
  | |- acyclic _ => apply (rank_check _ rank); ev
  | |- no_parallel _ => unfold no_parallel; apply (bool_decide_eq_true_1 _); ev
  | |- plain_tasks _ => apply plain_check_ok; ev
  | |- sync_env true _ => intros ??; exact I
  | |- sync_env false _ => intros ??; apply act_fail_sync
  | |- links_ok _ => intros ???; eexists; reflexivity
  | |- settings_ok _ => intros ??; eexists; reflexivity
  | |- mappers_ok _ => apply env1_mappers
  | |- main_status _ = _ => ev
  | |- evaluations _ = _ => ev
  | |- delivered _ = _ => ev
  | |- _ = Blocked => ev
  | |- s_lock _ = _ => ev
  | |- ~ NoDup _ => apply (bool_decide_eq_false_1 _); ev
  | |- forall n, main_status _ <> Some FCompleted => idtac
  | |- d_tasks _ <> [] => vm_compute; discriminate
  | |- d_eh _ <> None => vm_compute; discriminate
  | |- d_eh _ = None => ev
  | |- e_icpt _ = _ => ev
  | |- e_conc _ = _ => ev
  | |- _ => idtac
  end.
Ltac stuck k := apply (stuck_forever _ _ k); [apply is_some_check; ev|ev|ev].

(** ** Two links between the same tasks *)

Definition par_stall : defn :=
  flow_of "f" [tr "a"; tr "b"; tr "c"] [lexpr "a" "b" "false"; lexpr "a" "b" "false"; ldep "a" "c"] None None.
Definition par_twice : defn :=
  flow_of "f" [tr "a"; tr "b"; tr "c"] [ldep "a" "b"; lexpr "a" "b" "true"; lerr "b" "c"] None None.
Definition rank_abc : bool -> string -> nat := fun _ id =>
  if String.eqb id "a" then 0%nat else if String.eqb id "b" then 1%nat else 2%nat.

Lemma parallel_links_break :
  (exists E d uri ins, built d /\ acyclic d /\ plain_tasks d /\ sync_env true E /\ links_ok E /\
     settings_ok E /\ mappers_ok E /\ e_icpt E = None /\ e_conc E = false /\
     forall n, main_status (after E n (started E d uri ins)) <> Some FCompleted) /\
  (exists E d uri ins n, built d /\ acyclic d /\ plain_tasks d /\ sync_env false E /\ links_ok E /\
     settings_ok E /\ mappers_ok E /\ e_icpt E = None /\ e_conc E = false /\
     evaluations (after E n (started E d uri ins)) = [(0%nat, "a"); (0%nat, "b"); (0%nat, "b"); (0%nat, "c")]).
Proof.
  split.
  - exists (env1 act_ok), par_stall, "u", ∅. split_and!; side rank_abc. stuck 3%nat.
  - exists (env1 (act_fail ["b"])), par_twice, "u", ∅, 4%nat. split_and!; side rank_abc.
Qed.

(** ** A shortcut past a skipped task, listed after the link to that task *)

Definition shortcut_stall : defn :=
  flow_of "f" [tr "p"; tr "a"; tr "t"; tr "z"]
    [lexpr "p" "a" "false"; lexpr "p" "t" "false"; ldep "a" "t"; ldep "p" "z"] None None.
Definition shortcut_twice : defn :=
  flow_of "f" [tr "s"; tr "p"; tr "z"; tr "a"; tr "t"; tr "h"]
    [ldep "s" "z"; ldep "s" "p"; lexpr "p" "a" "false"; lexpr "p" "t" "false"; ldep "a" "t";
     ldep "z" "t"; lerr "t" "h"] None None.
Definition rank_s : bool -> string -> nat := fun _ id =>
  if String.eqb id "s" then 0%nat else if String.eqb id "z" then 1%nat else if String.eqb id "p" then 1%nat
  else if String.eqb id "a" then 2%nat else if String.eqb id "t" then 3%nat else 4%nat.
Definition rank_p : bool -> string -> nat := fun _ id =>
  if String.eqb id "p" then 0%nat else if String.eqb id "a" then 1%nat else 2%nat.

Lemma shortcut_stalls :
  exists E d uri ins, built d /\ acyclic d /\ no_parallel d /\ plain_tasks d /\ d_tasks d <> [] /\
    d_eh d = None /\ sync_env true E /\ links_ok E /\ settings_ok E /\ mappers_ok E /\
    e_icpt E = None /\ e_conc E = false /\
    forall n, main_status (after E n (started E d uri ins)) <> Some FCompleted.
Proof.
  exists (env1 act_ok), shortcut_stall, "u", ∅. split_and!; side rank_p. stuck 3%nat.
Qed.

Lemma shortcut_evaluates_twice :
  exists E d uri ins n, built d /\ acyclic d /\ no_parallel d /\ plain_tasks d /\ d_eh d = None /\
    sync_env false E /\ links_ok E /\ settings_ok E /\ mappers_ok E /\ e_icpt E = None /\ e_conc E = false /\
    ~ NoDup (evaluations (after E n (started E d uri ins))).
Proof.
  exists (env1 (act_fail ["t"])), shortcut_twice, "u", ∅, 6%nat. split_and!; side rank_s.
Qed.

(** ** An expression that panics *)
Definition panic_branch : defn :=
  flow_of "f" [tr "a"; tr "b"; tr "c"] [lexpr "a" "b" "panic"; loth "a" "c"] (Some ([tr "h"], [])) None.
Lemma panic_follows_otherwise :
  exists E d uri ins n,
    built d /\
    (forall k v l, l ∈ d_links d -> l_type l = LtExpression -> exists m, e_link E k v l = XPanic m) /\
    evaluations (after E n (started E d uri ins)) = [(0%nat, "a"); (0%nat, "c")] /\
    main_status (after E n (started E d uri ins)) = Some FCompleted.
Proof.
  exists (env0 act_ok), panic_branch, "u", ∅, 2%nat. split_and!.
  - apply flow_of_built; ev.
  - intros k v l Hl Ht. assert (Hd : d_links panic_branch =
      [mk_link 0 LtExpression "a" "b" "" "panic" (Some "panic") false;
       mk_link 1 LtExprOtherwise "a" "c" "" "" None false]) by ev.
    rewrite Hd in Hl. rewrite !elem_of_cons in Hl.
    destruct Hl as [->|[->|Hl]]; [by eexists|done|by apply elem_of_nil in Hl].
  - ev.
  - ev.
Qed.

(** ** An error while entering a task *)
Definition trm (id : string) : task_rep :=
  mk_task_rep id "" id {["mapped" := VInt 1]} (Some (mk_act_rep ("act." +:+ id) ∅ ∅)).
Definition settings_flow : defn :=
  flow_of "f" [tr "a"; trm "b"] [ldep "a" "b"] (Some ([tr "h"], [])) None.
Lemma settings_error_lost :
  exists E d uri ins e, built d /\ (forall n v, e_setmap E n v = XErr e) /\ sync_env true E /\
    (exists tk, tk ∈ d_tasks d /\ t_set tk = true) /\ d_eh d <> None /\
    forall n, main_status (after E n (started E d uri ins)) = Some FActive /\
              delivered (after E n (started E d uri ins)) = [] /\
              (0%nat, "h") ∉ evaluations (after E n (started E d uri ins)).
Proof.
  exists (set_e_setmap (fun _ _ => XErr (EOther "settings")) (env0 act_ok)), settings_flow, "u", ∅, (EOther "settings").
  split_and!; side rank_p.
  - intros n v. reflexivity.
  - assert (H : existsb t_set (d_tasks settings_flow) = true) by ev.
    apply existsb_exists in H as (tk & Htk & Hs). exists tk. split; [by apply elem_of_list_In|exact Hs].
  - set (E := set_e_setmap _ _). intros n.
    destruct n as [|n]; [split_and!; [ev|ev|]; vm_compute; by intros ?%elem_of_nil|].
    change (S n) with (1 + n)%nat. rewrite after_add.
    set (s := after E 1 (started E settings_flow "u" ∅)).
    assert (Hy : is_Some (s_insts s !! 0%nat)) by (apply is_some_check; ev).
    destruct Hy as [y Hy].
    destruct (after_idle E n s y Hy) as [Hl Hm]; [ev|].
    unfold delivered, evaluations, trace. rewrite Hl, Hm. split_and!; [ev|ev|].
    apply (bool_decide_eq_false_1 _). ev.
Qed.

(** ** A failed flow without an error *)
Definition eh_fails : defn :=
  flow_of "f" [tr "a"; tr "b"] [ldep "a" "b"] (Some ([tr "h"], [])) None.
Lemma failed_without_error :
  exists E ro d uri ins, built d /\ sync_env false E /\
    main_status (run_flow E ro d uri ins).2 = Some FFailed /\
    delivered (run_flow E ro d uri ins).2 = [(None, None)].
Proof.
  exists (env1 (act_fail ["b"; "h"])), ro0, eh_fails, "u", ∅. split_and!; side rank_p.
Qed.

(** ** Concurrent mode and skipped tasks *)
Definition skip_flow : defn :=
  flow_of "f" [tr "a"; tr "b"; tr "c"] [lexpr "a" "b" "false"; ldep "a" "c"] None None.
Lemma skip_blocks :
  exists E d uri ins, built d /\ acyclic d /\ no_parallel d /\ plain_tasks d /\ sync_env true E /\ links_ok E /\
    e_conc E = true /\ s_lock (started E d uri ins) = false /\
    (do_step E (started E d uri ins)).1 = Blocked.
Proof.
  exists (set_e_conc true (env1 act_ok)), skip_flow, "u", ∅. split_and!; side rank_abc.
Qed.

(** ** Loops over subflows *)
Definition sub_ok : defn := flow_of "sub" [tr "x"] [] None None.
Definition sub_act (l : list string) : nat -> view -> act := fun n v =>
  if bool_decide (v_task v ∈ l) then AStart "sub" ∅ (AEnd (AErr (EOther "no flow"))) (AEnd AWait) else act_ok n v.
Definition iter_sub : defn :=
  flow_of "f" [trs "a" "iterator" {["iterate" := VInt 2]}; tr "b"] [ldep "a" "b"] None None.
Definition dw_sub : defn :=
  flow_of "f" [trs "a" "doWhile" {["condition" := VStr "x"]}; tr "b"] [ldep "a" "b"] None None.
Definition env_sub : env :=
  set_e_cond (fun n _ _ => XOk (VBool true)) (set_e_def (fun _ _ => DOk sub_ok) (env1 (sub_act ["a"]))).
Lemma loop_over_subflow_stalls :
  (exists E d uri ins, built d /\ built_env E /\
    (exists tk c, d_tasks d = [tk] ++ tail (d_tasks d) /\ t_type tk = TIterator /\ t_loop tk = Some c /\
       lc_iter c = Some (IOVal (VInt 2))) /\
    (forall n, evaluations (after E (4 + n) (started E d uri ins)) = [(0%nat, "a"); (1%nat, "x")]) /\
    forall n, main_status (after E n (started E d uri ins)) <> Some FCompleted) /\
  (exists E d uri ins, built d /\ built_env E /\
    (exists tk, d_tasks d = [tk] ++ tail (d_tasks d) /\ t_type tk = TDoWhile) /\
    (forall n v src, e_cond E n v src = XOk (VBool true)) /\
    (forall n, evaluations (after E (4 + n) (started E d uri ins)) = [(0%nat, "a"); (1%nat, "x")])).
Proof.
  assert (Hb : built_env env_sub).
  { intros n uri d [= <-]. apply flow_of_built; ev. }
  assert (Hev : forall d, is_Some (s_insts (after env_sub 4 (started env_sub d "u" ∅)) !! 0%nat) ->
     idle_at env_sub 4 (started env_sub d "u" ∅) = true ->
     forall n, evaluations (after env_sub (4 + n) (started env_sub d "u" ∅)) =
               evaluations (after env_sub 4 (started env_sub d "u" ∅))).
  { intros d [y Hy] Hi n. rewrite after_add. unfold evaluations, trace.
    destruct (after_idle env_sub n _ y Hy) as [-> _]; [|done].
    unfold idle_at in Hi. by destruct (s_queue (after env_sub 4 _)). }
  split.
  - exists env_sub, iter_sub, "u", ∅. split_and!; side rank_p.
    + exact Hb.
    + eexists _, _. split_and!; ev.
    + intros n. rewrite Hev; [ev|apply is_some_check; ev|ev].
    + stuck 4%nat.
  - exists env_sub, dw_sub, "u", ∅. split_and!; side rank_p.
    + exact Hb.
    + eexists _. split_and!; ev.
    + intros n v src. reflexivity.
    + intros n. rewrite Hev; [ev|apply is_some_check; ev|ev].
Qed.

(** Deciding facts about looked up things by computation. *)
Lemma some_check {A} (P : A -> Prop) `{!forall a, Decision (P a)} (o : option A) :
  (match o with Some a => bool_decide (P a) | None => false end) = true -> exists a, o = Some a /\ P a.
Proof. destruct o as [a|]; [|done]. intros Hd%bool_decide_eq_true. eauto. Qed.
Lemma elem_check {A} `{EqDecision A} (x : A) (l : list A) : bool_decide (x ∈ l) = true -> x ∈ l.
Proof. apply bool_decide_eq_true. Qed.
