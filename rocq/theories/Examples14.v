(** Test data and checks for Props_ConcRun.v. Not part of the model; the values have no Go counterpart. *)
From Verif Require Export ConcRunProofs Examples6.
Local Open Scope Z_scope.

(** Three tasks in a row (test data). *)
Definition row3 : defn := flow_of "f" [tr "a"; tr "b"; tr "c"] [ldep "a" "b"; ldep "b" "c"] None None.
Definition ro_lim (mx : Z) : run_opts := mk_ro 0 false false "" mx.
(** Three tasks although the limit is two. *)
Lemma one_step_more : exists E d uri ins mx chs, built d /\ e_conc E = true /\ (run_begin E (ro_lim mx) ins (init_st d uri)).1 = Ok tt /\ mx = 2 /\
  (let r := crun_run E (ro_lim mx) chs (crun_start E (ro_lim mx) d uri ins) in
   r_over r = true /\ length (evaluations (c_st (r_conc r))) = 3%nat /\ length (executed (c_st (r_conc r))) = 3%nat /\ main_status (c_st (r_conc r)) = Some FCompleted /\
   delivered (c_st (r_conc r)) = [(None, None)]) /\
  delivered (run_flow (set_e_conc false E) (ro_lim mx) d uri ins).2 = [(None, Some (limit_err E (ro_lim mx)))].
Proof.
  exists env_conc, row3, "u", ∅, 2, ([Loop] ++ all4 0 ++ [Loop] ++ all4 1 ++ [Loop] ++ all4 2 ++ [Loop]).
  split; [apply flow_of_built; ev|]. split; [done|]. split; [ev|]. split; [done|]. split; [|ev]. cbv zeta. split_and!; ev.
Qed.

(** "a" fails, "b" replies (test data). *)
Definition fail_reply : nat -> view -> act := fun _ v => if bool_decide (v_task v = "a") then AEnd (AErr (EOther "a")) else AReply None (Some (EOther "late")) (AEnd ADone).
Definition env_late : env := set_e_conc true (env1 fail_reply).
Definition two_starts : defn := flow_of "f" [tr "a"; tr "b"] [] None None.
(** The caller has been told the end; then an activity is evaluated and gives a result. *)
Lemma late_result : exists E d uri ins ro chs chs', built d /\ e_conc E = true /\ (run_begin E ro ins (init_st d uri)).1 = Ok tt /\
  (let r := crun_run E ro chs (crun_start E ro d uri ins) in let r' := crun_run E ro chs' r in
   r_over r = true /\ main_status (c_st (r_conc r)) = Some FFailed /\ done_signals (c_st (r_conc r)) = [tt] /\
   evaluations (c_st (r_conc r)) = [(0%nat, "a")] /\ delivered (c_st (r_conc r)) = [(None, Some (EOther "a"))] /\
   evaluations (c_st (r_conc r')) = [(0%nat, "a"); (0%nat, "b")] /\ delivered (c_st (r_conc r')) = [(None, Some (EOther "a")); (None, Some (EOther "late"))]).
Proof.
  exists env_late, two_starts, "u", ∅, (ro_lim 10), ([Loop; Loop] ++ all4 0 ++ [Loop]), (all4 1).
  split; [apply flow_of_built; ev|]. split; [done|]. split; [ev|]. cbv zeta. split_and!; ev.
Qed.

(** Once the loop has ended and all goroutines have ended, nothing happens any more. *)
Lemma settled E ro chs r : r_over r = true -> Forall (eq ThEnd) (c_threads (r_conc r)) -> crun_run E ro chs r = r.
Proof.
  destruct r as [[s l q] n b]. cbn. intros -> Ht. induction chs as [|ch chs IH]; [done|]. cbn [crun_run fold_left].
  assert (Hs : crun_step E ro ch (mk_crun (mk_conc s l q) n true) = mk_crun (mk_conc s l q) n true); [|rewrite Hs; exact IH].
  destruct ch as [|k]; [done|]. cbn. f_equal. unfold advance. cbn. destruct (l !! k) as [th|] eqn:Hk; [|done].
  assert (th = ThEnd) as -> by (eapply Forall_lookup_1 in Ht; eauto). cbn. by rewrite list_insert_id.
Qed.
Lemma ended_check c : forallb (fun th => match th with ThEnd => true | _ => false end) (c_threads c) = true -> Forall (eq ThEnd) (c_threads c).
Proof. intros H. apply Forall_forall. intros th Hin. rewrite forallb_forall in H. specialize (H th ltac:(by apply elem_of_list_In)). by destruct th. Qed.

(** The limit is reached: the work item taken from the queue is lost. *)
Definition row2 : defn := flow_of "f" [tr "a"; tr "b"] [ldep "a" "b"] None None.
Lemma item_lost : exists E d uri ins mx chs chs', built d /\ e_conc E = true /\ (run_begin E (ro_lim mx) ins (init_st d uri)).1 = Ok tt /\
  (let r0 := crun_run E (ro_lim mx) chs (crun_start E (ro_lim mx) d uri ins) in let r := crun_run E (ro_lim mx) chs' r0 in
   length (s_queue (c_st (r_conc r0))) = 1%nat /\ evaluations (c_st (r_conc r0)) = [(0%nat, "a")] /\
   (forall chs'', crun_run E (ro_lim mx) chs'' r = r) /\ s_queue (c_st (r_conc r)) = [] /\ main_status (c_st (r_conc r)) = Some FActive /\
   evaluations (c_st (r_conc r)) = [(0%nat, "a")] /\ delivered (c_st (r_conc r)) = [(None, Some (limit_err E (ro_lim mx)))] /\
   exists y t x, s_insts (c_st (r_conc r)) !! 0%nat = Some y /\ i_tasks y !! "b" = Some t /\ s_tis (c_st (r_conc r)) !! t = Some x /\ ti_status x = TReady) /\
  length (s_queue (run_flow (set_e_conc false E) (ro_lim 1) d uri ins).2) = 1%nat /\
  evaluations (run_flow (set_e_conc false E) (ro_lim 1) d uri ins).2 = [(0%nat, "a")].
Proof.
  exists env_conc, row2, "u", ∅, 0, ([Loop] ++ all4 0), [Loop].
  split; [apply flow_of_built; ev|]. split; [done|]. split; [ev|]. split; [|split; ev]. cbv zeta. split; [ev|]. split; [ev|].
  split; [intros chs''; apply settled; [ev|apply ended_check; ev]|]. split; [ev|]. split; [ev|]. split; [ev|]. split; [ev|]. apply has_status_ok. ev.
Qed.

(** "a" leads to "c", "b" to nothing (test data). *)
Definition two_branches : defn := flow_of "f" [tr "a"; tr "b"; tr "c"] [ldep "a" "c"] None None.
(** "a" is done, but "c" has not been entered yet, when "b" finishes and finds all tasks done. *)
Lemma completes_early : exists E d uri ins mx chs, built d /\ acyclic d /\ no_parallel d /\ plain_tasks d /\ d_eh d = None /\
  sync_env true E /\ links_ok E /\ settings_ok E /\ mappers_ok E /\ e_icpt E = None /\ e_conc E = true /\
  (let r := crun_run E (ro_lim mx) chs (crun_start E (ro_lim mx) d uri ins) in
   r_over r = true /\ main_status (c_st (r_conc r)) = Some FCompleted /\ delivered (c_st (r_conc r)) = [(None, None)] /\
   evaluations (c_st (r_conc r)) = [(0%nat, "a"); (0%nat, "b")] /\ (forall chs', crun_run E (ro_lim mx) chs' r = r) /\
   length (s_queue (c_st (r_conc r))) = 1%nat /\
   exists y t x, s_insts (c_st (r_conc r)) !! 0%nat = Some y /\ i_tasks y !! "c" = Some t /\ s_tis (c_st (r_conc r)) !! t = Some x /\ ti_status x = TReady) /\
  evaluations (run_flow (set_e_conc false E) (ro_lim mx) d uri ins).2 = [(0%nat, "a"); (0%nat, "b"); (0%nat, "c")].
Proof.
  exists env_conc, two_branches, "u", ∅, 10, [Loop; Loop; Go 0; Go 0; Go 1; Go 1; Go 1; Go 1; Loop; Go 0; Go 0].
  split_and!; [fact (fun (_ : bool) (x : string) => if String.eqb x "c" then 1%nat else 0%nat)..| |ev].
  cbv zeta. split; [ev|]. split; [ev|]. split; [ev|]. split; [ev|].
  split; [intros chs'; apply settled; [ev|apply ended_check; ev]|]. split; [ev|]. apply has_status_ok. ev.
Qed.
