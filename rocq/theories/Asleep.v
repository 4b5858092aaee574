(** Nothing wakes up a flow without queued work. No Go counterpart (proof infrastructure). *)
From Verif Require Export Waits Resume.
Local Open Scope Z_scope.

(** What may be done with an instance that has been started, from the outside: one more step, or a run that resumes it. *)
Inductive later (E : env) : st -> st -> Prop :=
  | later_same s : later E s s
  | later_step s s' : later E (do_step E s).2 s' -> later E s s'
  | later_resume ro ins s s' : later E (run_resume E ro ins s).2 s' -> later E s s'.

Section Asleep.
  Context (E : env).
  Definition asleep (s : st) : Prop := main_status s = Some FActive /\ s_queue s = [].
  Definition unmoved (s s' : st) : Prop := s_tis s' = s_tis s /\ evaluations s' = evaluations s.
  Definition sl {A} (m : M A) : Prop := forall s, asleep s -> asleep (m s).2 /\ unmoved s (m s).2.
  Lemma sl_ret {A} (a : A) : sl (ret a).
  Proof. intros s H. by split. Qed.
  Lemma sl_panic {A} msg : sl (A:=A) (panic msg).
  Proof. intros s H. by split. Qed.
  Lemma sl_bind {A B} (m : M A) (k : A -> M B) : sl m -> (forall a, sl (k a)) -> sl (bind m k).
  Proof.
    intros H1 H2 s H. destruct (H1 s H) as [Ha [U1 U2]]. unfold bind. destruct (m s) as [[a| | |] s1]; cbn [snd] in *; [|by split..].
    destruct (H2 a s1 Ha) as [Hb [V1 V2]]. split; [done|]. split; congruence.
  Qed.
  Lemma sl_finally {A} (m : M A) f : sl m -> sl f -> sl (finally m f).
  Proof.
    intros H1 H2. unfold finally. apply sl_bind.
    - intros s H. unfold catch. destruct (H1 s H) as [Ha U]. unfold bind. by destruct (m s) as [[] ?].
    - intros r. apply sl_bind; [done|]. intros _. destruct r; [apply sl_panic|apply sl_ret].
  Qed.
  Lemma sl_get {B} (k : st -> M B) : (forall s, sl (k s)) -> sl (bind get k).
  Proof. intros H s Hs. by apply H. Qed.
  Lemma sl_log e : match e with EvAct _ _ _ _ => False | _ => True end -> sl (log_ev e).
  Proof.
    intros He s H. split; [done|]. split; [done|]. unfold evaluations, trace. cbn. rewrite omap_app. cbn. by destruct e; rewrite ?app_nil_r.
  Qed.
  Lemma sl_upd f : (forall y, i_status (f y) = i_status y) -> sl (upd_inst 0 f).
  Proof.
    intros Hf s [Hm Hq]. split; [|done]. split; [|done]. unfold main_status in *. cbn. rewrite lookup_alter. destruct (s_insts s !! 0%nat); [|done]. cbn in *. by rewrite Hf.
  Qed.
  Lemma sl_get_inst i : sl (get_inst i).
  Proof. intros s H. unfold get_inst, bind, get. destruct (s_insts s !! i); by split. Qed.
  Lemma sl_set m : sl (set_values E 0 m).
  Proof. apply sl_bind; [apply sl_get_inst|]. intros _. apply sl_bind; [by apply sl_upd|]. intros _. by apply sl_log. Qed.
  Lemma sl_state : sl flow_state.
  Proof.
    apply sl_bind; [|intros; apply sl_ret]. apply sl_bind; [apply sl_get_inst|]. intros x. destruct (i_rdata x); [apply sl_ret|].
    destruct (d_md (i_def x)) as [[? [mdo|]]|]; [|apply sl_ret..]. apply sl_bind; [by apply sl_upd|]. intros. apply sl_ret.
  Qed.
  Lemma sl_record : sl (record_state E).
  Proof.
    unfold record_state. destruct (e_rec E) as [m|]; [|apply sl_panic]. apply sl_bind.
    - destruct (record_snapshot m); [|apply sl_ret]. destruct (e_ext E); [|apply sl_panic]. apply sl_get. intros. by apply sl_log.
    - intros _. destruct (record_steps m); [|apply sl_ret]. destruct (e_ext E); [by apply sl_log|apply sl_panic].
  Qed.
  Lemma sl_step : sl (do_step E).
  Proof.
    intros s [Hm Hq]. assert (exists y, s_insts s !! 0%nat = Some y) as [y Hy] by (unfold main_status in Hm; destruct (s_insts s !! 0%nat); eauto; done).
    rewrite (Findings.do_step_idle E s y Hy Hq). by split.
  Qed.
  Lemma sl_loop n : forall k, sl (run_loop E n k).
  Proof.
    induction n as [|n IH]; intros k; [apply sl_ret|]. cbn [run_loop]. apply sl_bind; [apply sl_get_inst|]. intros x. destruct (_ <? _); [|apply sl_ret].
    apply sl_bind; [apply sl_step|]. intros b. apply sl_bind; [destruct (e_ext E); [apply sl_record|apply sl_ret]|]. intros _. destruct b; [apply IH|apply sl_ret].
  Qed.
  Lemma sl_finish ro k : sl (run_finish E ro k).
  Proof.
    intros s H. assert (exists y, s_insts s !! 0%nat = Some y /\ i_status y = FActive) as (y & Hy & Ha).
    { destruct H as [Hm _]. unfold main_status in Hm. destruct (s_insts s !! 0%nat) as [y|]; [|done]. exists y. split; [done|]. by injection Hm. }
    unfold run_finish. rewrite (eval_get_inst _ _ _ _ Hy), Ha. change (FActive =? FCompleted) with false. change (FActive =? FFailed) with false.
    destruct (k =? ro_max ro); cbn [andb negb]; [by apply sl_log|]. revert s H Hy. cut (sl (ret tt ;; (if e_ext E then flow_state ;; log_ev EvRecDone else ret tt))); [intros H s Hs _; by apply H|].
    apply sl_bind; [apply sl_ret|]. intros _. destruct (e_ext E); [|apply sl_ret]. apply sl_bind; [apply sl_state|]. intros _. by apply sl_log.
  Qed.
  Lemma sl_resume ro ins : sl (run_resume E ro ins).
  Proof.
    apply sl_bind. { destruct (e_ext E); [|apply sl_ret]. apply sl_bind; [apply sl_state|]. intros _. by apply sl_log. }
    intros _. apply sl_bind. { destruct (String.eqb _ _); [apply sl_ret|apply sl_set]. }
    intros _. apply sl_bind. { unfold update_attrs. destruct (bool_decide _); [apply sl_ret|]. destruct (e_conc E); [intros s H; by split|apply sl_set]. }
    intros _. apply sl_bind; [by apply sl_upd|]. intros _. apply sl_bind. { destruct (e_ext E); [|apply sl_ret]. destruct (_ <=? _); [apply sl_record|by apply sl_log]. }
    intros _. unfold run_body. apply sl_bind.
    { apply sl_bind; [destruct (ro_detach ro); [by apply sl_log|apply sl_ret]|]. intros _. destruct (ro_retid ro); [by apply sl_log|apply sl_ret]. }
    intros _. apply sl_finally; [|destruct (ro_detach ro); [apply sl_ret|by apply sl_log]]. cbv zeta. apply sl_bind; [apply sl_loop|]. intros. apply sl_finish.
  Qed.
  Lemma never_woken s s' : main_status s = Some FActive -> s_queue s = [] -> later E s s' ->
    main_status s' = Some FActive /\ s_queue s' = [] /\ s_tis s' = s_tis s /\ evaluations s' = evaluations s.
  Proof.
    intros Hm Hq L. assert (asleep s) as H by done. clear Hm Hq.
    induction L as [s|s s' L IH|ro ins s s' L IH].
    - destruct H. by split_and!.
    - destruct (sl_step s H) as [Ha [U1 U2]]. destruct (IH Ha) as (? & ? & H1 & H2). split_and!; [done|done|congruence|congruence].
    - destruct (sl_resume ro ins s H) as [Ha [U1 U2]]. destruct (IH Ha) as (? & ? & H1 & H2). split_and!; [done|done|congruence|congruence].
  Qed.
End Asleep.
