(** When a goroutine waits for the lock it holds itself. No Go counterpart (proof infrastructure). *)
From Verif Require Export ConcProofs.
Local Open Scope Z_scope.

(** A task was skipped. *)
Definition skips (l : list event) : Prop := exists i id, EvTaskUpd i id TSkipped ∈ l.
Lemma skips_l l l' : skips l -> skips (l ++ l').
Proof. intros (i & id & H). exists i, id. apply elem_of_app. by left. Qed.
Lemma skips_r l l' : skips l' -> skips (l ++ l').
Proof. intros (i & id & H). exists i, id. apply elem_of_app. by right. Qed.

(** The log grows, and the statement does not wait for a lock unless a task is skipped; [c]: this
    holds only when the lock is free (then the recursion bound may be reached as well). *)
Definition nb (c : bool) {A} (m : M A) : Prop := forall s, exists l, s_log (m s).2 = l ++ s_log s /\
  (skips l \/ (c = true /\ s_lock s = true) \/ ((m s).1 <> Blocked /\ (c = false -> (m s).1 <> Fuel) /\ s_lock (m s).2 = s_lock s)).

Section Nb.
  Context (E : env).
  Lemma nb_weak {A} c (m : M A) : nb false m -> nb c m.
  Proof. intros H s. destruct (H s) as (l & Hl & [?|[[? _]|(? & ? & ?)]]); [|done|]; exists l; (split; [done|]); [by left|right; right; by auto]. Qed.
  Lemma nb_here {A} c (o : out A) : o <> Blocked -> (c = false -> o <> Fuel) -> nb c (fun s => (o, s)).
  Proof. intros H H' s. exists []. split; [done|]. by right; right. Qed.
  Lemma nb_ret {A} c (a : A) : nb c (ret a).
  Proof. by apply nb_here. Qed.
  Lemma nb_panic {A} c m : nb c (panic (A:=A) m).
  Proof. by apply nb_here. Qed.
  Lemma nb_fuel {A} : nb true (out_of_fuel (A:=A)).
  Proof. by apply nb_here. Qed.
  Lemma nb_get c : nb c get.
  Proof. intros s. exists []. split; [done|]. by right; right. Qed.
  Lemma nb_modify c f : (forall s, s_log (f s) = s_log s) -> (forall s, s_lock (f s) = s_lock s) -> nb c (modify f).
  Proof. intros H1 H2 s. exists []. split; [apply H1|]. right; right. split; [done|]. split; [done|apply H2]. Qed.
  Lemma nb_log c e : nb c (log_ev e).
  Proof. intros s. exists [e]. split; [done|]. by right; right. Qed.
  Lemma nb_bind {A B} c (m : M A) (k : A -> M B) : nb c m -> (forall a, nb c (k a)) -> nb c (bind m k).
  Proof.
    intros Hm Hk s. destruct (Hm s) as (l & Hl & H). unfold bind. destruct (m s) as [[a|e| |] s1]; cbn [fst snd] in *;
      [|exists l; split; [done|]; destruct H as [?|[?|(H1 & H0 & H2)]]; auto; right; right; (split; [first [by intros ?|by destruct H1]|split; [|done]; intros F; specialize (H0 F); first [done|by destruct H0]])..].
    - destruct (Hk a s1) as (l' & Hl' & H'). exists (l' ++ l). split; [by rewrite Hl', Hl, app_assoc|].
      destruct H as [?|[?|(_ & _ & H)]]; [left; by apply skips_r|by auto|]. rewrite H in H'.
      destruct H' as [?|[?|?]]; [left; by apply skips_l|auto..].
  Qed.
  Lemma nb_catch {A} c (m : M A) h : nb c m -> (forall e, nb c (h e)) -> nb c (catch m h).
  Proof.
    intros Hm Hk s. destruct (Hm s) as (l & Hl & H). unfold catch. destruct (m s) as [[a|e| |] s1]; cbn [fst snd] in *;
      [by exists l| |by exists l..].
    destruct (Hk e s1) as (l' & Hl' & H'). exists (l' ++ l). split; [by rewrite Hl', Hl, app_assoc|].
    destruct H as [?|[?|(_ & _ & H)]]; [left; by apply skips_r|by auto|]. rewrite H in H'.
    destruct H' as [?|[?|?]]; [left; by apply skips_l|auto..].
  Qed.
  Lemma nb_finally {A} c (m : M A) f : nb c m -> nb c f -> nb c (finally m f).
  Proof.
    intros Hm Hf. unfold finally. apply nb_bind.
    - apply nb_catch; [apply nb_bind; [done|intros; apply nb_ret]|intros; apply nb_ret].
    - intros r. apply nb_bind; [done|]. intros _. destruct r; [apply nb_panic|apply nb_ret].
  Qed.
  Lemma nb_iterM {A} c (f : A -> M unit) l : (forall x, nb c (f x)) -> nb c (iterM f l).
  Proof. intros Hf. induction l; simpl; [apply nb_ret|]. apply nb_bind; auto. Qed.

  Ltac go := repeat first
    [ apply nb_ret | apply nb_panic | apply nb_fuel | apply nb_get | apply nb_log
    | (apply nb_modify; intros ?; reflexivity) | (apply nb_iterM; intros ?)
    | assumption
    | lazymatch goal with
      | |- nb _ (bind _ _) => apply nb_bind; [|intros ?]
      | |- nb _ (catch _ _) => apply nb_catch; [|intros ?]
      | |- nb _ (finally _ _) => apply nb_finally
      | |- nb _ (let _ := _ in _) => cbv zeta
      | |- nb _ (match ?x with _ => _ end) => destruct x
      | |- nb _ (get_ti _) => unfold get_ti
      | |- nb _ (get_inst _) => unfold get_inst
      | |- nb _ (upd_ti _ _) => unfold upd_ti
      | |- nb _ (upd_inst _ _) => unfold upd_inst
      | |- nb _ (ext _ _) => unfold ext
      | |- nb _ tick => unfold tick
      | |- nb _ (set_wd _ _ _) => unfold set_wd
      | |- nb _ (set_attrs _ _ _) => unfold set_attrs
      | |- nb _ (set_value _ _ _ _) => unfold set_value
      | |- nb _ (set_values _ _ _) => unfold set_values
      | |- nb _ (post_flow_event _ _) => unfold post_flow_event
      | |- nb _ (get_return_data _) => unfold get_return_data
      | |- nb _ (set_flow_status _ _ _) => unfold set_flow_status
      | |- nb _ (set_task_status _ _) => unfold set_task_status
      | |- nb _ (track_task _) => unfold track_task
      | |- nb _ (new_tinst _ _) => unfold new_tinst
      | |- nb _ (find_or_create_task _ _) => unfold find_or_create_task
      | |- nb _ (find_or_create_link _ _) => unfold find_or_create_link
      | |- nb _ (from_links _) => unfold from_links
      | |- nb _ (to_links _) => unfold to_links
      | |- nb _ (need_cov _ _ _) => unfold need_cov
      | |- nb _ (set_link_status _ _ _ _) => unfold set_link_status
      | |- nb _ (release_task _ _) => unfold release_task
      | |- nb _ (schedule_eval _) => unfold schedule_eval
      | |- nb _ (record_state _) => unfold record_state
      | |- nb _ (append_error_data _ _ _) => unfold append_error_data
      | |- nb _ (set_task_error _ _ _) => unfold set_task_error
      | |- nb _ (add_activity_coverage _ _) => unfold add_activity_coverage
      | |- nb _ (apply_settings _ _) => unfold apply_settings
      | |- nb _ (enter _) => unfold enter
      | |- nb _ (host_of _) => unfold host_of
      | |- nb _ clear_tasks => unfold clear_tasks
      | |- nb _ (complete_flow _ _) => unfold complete_flow
      | |- nb _ (entries_of _ _) => unfold entries_of
      | |- nb _ (eval_link _ _ _) => unfold eval_link
      | |- nb _ (done_link _ _ _ _ _) => unfold done_link
      | |- nb _ (beh_skip _ _) => unfold beh_skip
      | |- nb _ (beh_error _ _) => unfold beh_error
      | |- nb _ (flow_task_done _) => unfold flow_task_done
      | |- nb _ (parent_info _ _) => unfold parent_info
      | |- nb _ (new_embedded _ _ _) => unfold new_embedded
      | |- nb _ (reply _ _ _) => unfold reply
      | |- nb _ (return_ _ _ _) => unfold return_
      | |- nb _ (icpt_id _) => unfold icpt_id
      | |- nb _ (apply_input_mapper _ _) => unfold apply_input_mapper
      | |- nb _ (apply_input_icpt _ _) => unfold apply_input_icpt
      | |- nb _ (set_exec_status _ _ _) => unfold set_exec_status
      | |- nb _ (apply_output_icpt _ _) => unfold apply_output_icpt
      | |- nb _ (apply_output_mapper _ _) => unfold apply_output_mapper
      | |- nb _ (handle_accumulation _ _) => unfold handle_accumulation
      | |- nb _ (guard_err _ _) => unfold guard_err
      | |- nb _ (recover_eval _ _) => unfold recover_eval
      | |- nb _ (has_output_icpt _ _) => unfold has_output_icpt
      | |- nb _ (retry_value _ _ _) => unfold retry_value
      | |- nb _ (retry_data _ _ _) => unfold retry_data
      | |- nb _ (retry_bound _) => unfold retry_bound
      | |- nb _ (iterate_on _ _ _) => unfold iterate_on
      | |- nb _ (init_index _) => unfold init_index
      | |- nb _ (update_index _) => unfold update_index
      | |- nb _ (check_cond _ _) => unfold check_cond
      end ].

  Lemma nb_done_links c t i ls a : nb c (done_links E t i ls a).
  Proof. revert a. induction ls as [|l ls IH]; intros a; simpl; [go|]. apply nb_bind; [go|]. intros []; [go|apply IH]. Qed.
  Lemma nb_beh_done c t : nb c (beh_done E t).
  Proof.
    unfold beh_done. apply nb_bind; [go|]. intros ls. apply nb_bind; [go|]. intros _. apply nb_bind; [go|]. intros x. cbv zeta.
    destruct ls; [go|]. apply nb_bind; [apply nb_done_links|]. intros [e|a]; [go|]. apply nb_bind; [go|]. intros es. go.
  Qed.
  Lemma nb_asserts c t id b k l : nb c (run_asserts E t id b k l).
  Proof. revert k. induction l as [|a l IH]; intros k; cbn [run_asserts]; [go|]. destruct (negb b), (as_empty a), (as_type a =? 1)%Z; go; apply IH. Qed.
  Lemma nb_apply_asserts c t ty : nb c (apply_asserts E t ty).
  Proof. unfold apply_asserts. go. apply nb_asserts. Qed.

  (** *** Entering tasks *)
  (** Entering a task that is then skipped is logged. *)
  Lemma enter_skip t s s' : enter t s = (Ok ERSkip, s') -> exists l, s_log s' = l ++ s_log s /\ skips l.
  Proof.
    intros H. assert (Hg : forall m : M enter_result, nb true m -> forall s0, exists l, s_log (m s0).2 = l ++ s_log s0).
    { intros m Hm s0. destruct (Hm s0) as (l & ? & _). eauto. }
    unfold enter in H. apply bind_ok in H as (u & s1 & H1 & H). apply bind_ok in H as (ls & s2 & H2 & H).
    apply bind_ok in H as (x & s3 & H3 & H). apply bind_ok in H as (y & s4 & H4 & H).
    assert (G : exists l, s_log s4 = l ++ s_log s).
    { assert (T : nb true (bind (set_task_status t TEntered) (fun _ => bind (from_links t) (fun _ => bind (get_ti t) (fun x => get_inst (ti_inst x)))))) by go.
      destruct (T s) as (l & Hl & _). exists l. revert Hl. unfold bind. by rewrite H1, H2, H3, H4. }
    destruct G as [l0 G]. destruct (scan_links _ _ _) as [[]|]; [|apply bind_ok in H as (? & ? & _ & H); discriminate H|discriminate H].
    apply bind_ok in H as (u' & s5 & H5 & H). injection H as <-. unfold set_task_status in H5. apply bind_ok in H5 as (x' & s6 & H6 & H5).
    assert (s6 = s4) as ->. { unfold get_ti, bind, get, ret, panic in H6. destruct (s_tis s4 !! t); congruence. }
    unfold upd_ti, log_ev, bind, modify in H5. injection H5 as _ <-. cbn. exists (EvTaskUpd (ti_inst x') (t_id (ti_task x')) TSkipped :: l0).
    rewrite G. split; [done|]. exists (ti_inst x'), (t_id (ti_task x')). left.
  Qed.
  Definition nbs {A} (s : st) (r : out A * st) : Prop := exists l, s_log r.2 = l ++ s_log s /\
    (skips l \/ (false = true /\ s_lock s = true) \/ (r.1 <> Blocked /\ (false = false -> r.1 <> Fuel) /\ s_lock r.2 = s_lock s)).
  Lemma nbs_trans {A B} s (a : A) s1 (r : out B * st) : nbs s (Ok a, s1) -> nbs s1 r -> nbs s r.
  Proof.
    intros (l & Hl & H) (l' & Hl' & H'). exists (l' ++ l). cbn in *. split; [by rewrite Hl', Hl, app_assoc|].
    destruct H as [?|[[? _]|(_ & _ & H)]]; [left; by apply skips_r|done|]. rewrite H in H'.
    destruct H' as [?|[[? _]|?]]; [left; by apply skips_l|done|auto].
  Qed.
  Lemma nbs_bind {A B} s (m : M A) (k : A -> M B) : nbs s (m s) -> (forall a s1, m s = (Ok a, s1) -> nbs s (k a s1)) -> nbs s (bind m k s).
  Proof.
    intros Hm Hk. unfold bind. destruct (m s) as [[a|e| |] s1]; [by apply Hk|..]; destruct Hm as (l & Hl & H); exists l; (split; [done|]); cbn in *.
    all: destruct H as [?|[[? _]|(H1 & H0 & H2)]]; [by left|done|].
    - by right; right.
    - by destruct (H0 eq_refl).
    - by destruct H1.
  Qed.
  Lemma nb_enter_list skip i es : (forall t, nb true (skip t)) -> nb false (enter_list E skip i es).
  Proof.
    intros Hs. induction es as [|[tk z] es IH]; cbn [enter_list]; [go|]. apply nb_bind; [go|]. intros t. apply nb_bind; [go|]. intros x.
    destruct (e_conc E && ti_sched x); [done|]. intros s. assert (He : nb false (enter t)) by go.
    refine (nbs_bind s (enter t) _ (He s) _). intros er s1 Hr. assert (H1 : nbs s (Ok er, s1)) by (rewrite <- Hr; apply He). destruct er.
    - eapply nbs_trans; [exact H1|]. apply IH.
    - assert (Hk : nb false (bind (apply_settings E t) (fun m => match m with Some e => ret (Some e)
        | None => bind (upd_ti t (set_ti_sched true)) (fun _ => bind (schedule_eval t) (fun _ => enter_list E skip i es)) end))) by go.
      eapply nbs_trans; [exact H1|]. apply Hk.
    - destruct (enter_skip _ _ _ Hr) as (l1 & Hl1 & Hsk).
      assert (Hk : nb true (bind (skip t) (fun _ => enter_list E skip i es))) by (apply nb_bind; [done|intros; by apply nb_weak]).
      destruct (Hk s1) as (l' & Hl' & _). exists (l' ++ l1). split; [by rewrite Hl', Hl1, app_assoc|]. left. by apply skips_r.
  Qed.
  Lemma nb_with_lock {A} (m : M A) : nb false m -> nb true (with_lock E m).
  Proof.
    intros Hm. unfold with_lock. destruct (e_conc E); [|by apply nb_weak]. intros s. destruct (Hm (set_s_lock true s)) as (l & Hl & H).
    cbv [bind get modify finally catch ret panic]. destruct (s_lock s) eqn:Hlk; [exists []; split; [done|]; by right; left|].
    destruct (m (set_s_lock true s)) as [[a|e| |] s1]; cbn in *.
    all: exists l; split; [done|]; destruct H as [?|[[? _]|(H1 & H0 & H2)]]; [by left|done|]; right; right; try done.
    by destruct (H0 eq_refl).
  Qed.
  Lemma nb_global ent i e : (forall j es, nb true (ent j es)) -> nb true (handle_global_error E ent i e).
  Proof. intros He. unfold handle_global_error. go. apply He. Qed.
  Lemma nb_done ent t : (forall j es, nb true (ent j es)) -> nb true (handle_task_done E ent t).
  Proof.
    intros He. unfold handle_task_done. apply nb_bind; [go|]. intros x. cbv zeta. apply nb_bind.
    { destruct (bool_decide _); go; apply nb_beh_done. }
    intros [e|[nt es]].
    - apply nb_bind; [go|]. intros y. apply nb_bind; [go|]. intros _. by apply nb_global.
    - apply nb_bind; [go|]. intros fd. apply nb_bind; [go|]. intros y. apply nb_bind; [|intros; go].
      destruct (_ || _); [go|]. apply nb_bind; [apply He|intros; go].
  Qed.
  Lemma nb_enter_tasks n i es : nb true (enter_tasks E n i es).
  Proof.
    revert i es. induction n as [|n IH]; intros i es; cbn [enter_tasks]; apply nb_with_lock, nb_enter_list; intros t; [apply nb_fuel|].
    by apply nb_done.
  Qed.
  Lemma nb_enter_top i es : nb true (enter_top E i es).
  Proof. unfold enter_top. apply nb_bind; [go|]. intros. apply nb_enter_tasks. Qed.
  Lemma nb_handle_error t e : nb true (handle_task_error E t e).
  Proof.
    unfold handle_task_error. apply nb_bind; [go|]. intros _. apply nb_bind; [go|]. intros _. apply nb_bind; [go|]. intros r.
    apply nb_bind; [go|]. intros x. cbv zeta. destruct (r.1).
    - apply nb_bind; [go|]. intros _. apply nb_bind; [|intros; go]. destruct (r.2); [go|]. apply nb_bind; [apply nb_enter_top|intros; go].
    - apply nb_bind; [go|]. intros y. destruct (i_handling y); [go|]. apply nb_bind; [go|]. intros _. apply nb_global, nb_enter_top.
  Qed.
  Lemma nb_start_instance i m : nb true (start_instance E i m).
  Proof.
    unfold start_instance. apply nb_bind; [go|]. intros x. apply nb_bind; [go|]. intros h. apply nb_bind; [go|]. intros _.
    apply nb_bind; [go|]. intros _. apply nb_bind; [go|]. intros _. apply nb_bind; [go|]. intros _. apply nb_bind; [apply nb_enter_top|intros; go].
  Qed.
  Lemma nb_start_subflow t uri ins : nb true (start_subflow E t uri ins).
  Proof.
    unfold start_subflow. apply nb_bind; [go|]. intros n. destruct (e_def E n uri); [|go..]. apply nb_bind; [go|]. intros i.
    apply nb_bind; [apply nb_start_instance|]. intros _. go.
  Qed.
  Lemma nb_run_act t a : nb true (run_act E t a).
  Proof.
    induction a as [r|n v k IH|m k IH|n v k IH|d e k IH|d e k IH|uri ins k1 IH1 k2 IH2]; cbn [run_act]; (apply nb_bind; [go|]; intros x); [go..|].
    apply nb_bind; [apply nb_start_subflow|]. intros []; done.
  Qed.

  (** *** Evaluating *)
  Lemma nb_call t : nb true (call_activity E t).
  Proof.
    unfold call_activity. apply nb_bind; [go|]. intros x. cbv zeta. apply nb_bind; [go|]. intros _. apply nb_bind; [go|]. intros a.
    apply nb_bind; [apply nb_catch; [apply nb_run_act|intros; go]|]. intros [| |e0|msg]; [go|go| |go]. cbv zeta.
    apply nb_bind; [go|]. intros _. apply nb_bind; [go|]. intros _. apply nb_bind; [go|]. intros y. apply nb_bind; [go|]. intros _.
    apply nb_bind; [go|]. intros _. apply nb_bind; [|intros; go]. apply nb_catch; [|intros; go]. apply nb_bind; [apply nb_apply_asserts|intros; go].
  Qed.
  Lemma nb_finish c t : nb c (finish_activity E t).
  Proof.
    unfold finish_activity. apply nb_bind; [go|]. intros x. unfold guard_err. apply nb_bind; [go|]. intros []; [go|].
    apply nb_bind; [go|]. intros []; [go|]. apply nb_bind; [go|]. intros []; [go|]. apply nb_bind; [apply nb_apply_asserts|]. intros []; go.
  Qed.
  Lemma nb_eval_activity t : nb true (eval_activity E t).
  Proof.
    unfold eval_activity, recover_eval. apply nb_catch; [|intros; go]. apply nb_bind; [go|]. intros x. destruct (t_act (ti_task x)) as [ac|]; [|go].
    unfold guard_err. apply nb_bind; [go|]. intros []; [go|]. apply nb_bind; [go|]. intros []; [|apply nb_finish].
    apply nb_bind; [go|]. intros []; [go|]. apply nb_bind; [go|]. intros [].
    - apply nb_bind; [go|]. intros _. apply nb_finish.
    - apply nb_bind; [apply nb_call|]. intros [|[]]; [go|apply nb_finish|go].
  Qed.
  Lemma nb_post t : nb true (post_eval_activity E t).
  Proof.
    unfold post_eval_activity, recover_eval. apply nb_catch; [|intros; go]. apply nb_bind; [go|]. intros x. cbv zeta. apply nb_bind; [go|]. intros p.
    apply nb_bind.
    - destruct p; [|go]. apply nb_bind; [go|]. intros _. apply nb_bind; [apply nb_run_act|]. intros []; go.
    - intros [e|b]; [go|]. apply nb_bind; [go|]. intros y. destruct (ti_rerr y); [go|]. destruct b; [|go]. unfold guard_err.
      apply nb_bind; [go|]. intros []; [go|]. apply nb_bind; [go|]. intros []; [go|]. apply nb_bind; [apply nb_apply_asserts|]. intros []; go.
  Qed.
  Lemma nb_retry_loop n t r : nb true (retry_loop E n t r).
  Proof.
    revert r. induction n as [|n IH]; intros r; cbn [retry_loop]; (apply nb_bind; [go|]); intros x; destruct r as [e|]; [|go| |go];
      destruct (t_retry (ti_task x)) as [rc|]; [|go| |go]; (destruct (retriable e); [|go]); (apply nb_bind; [go|]); intros [e'|[z iv]]; [go| |go|];
      (destruct (0 <? z)%Z; [|go]); [go|]. apply nb_bind; [go|]. intros _. apply nb_bind; [apply nb_eval_activity|]. apply IH.
  Qed.
  Lemma nb_eval_retry t : nb true (eval_retry E t).
  Proof.
    unfold eval_retry. apply nb_bind; [apply nb_eval_activity|]. intros r. apply nb_bind; [go|]. intros x. destruct r as [e|]; [|go].
    destruct (t_retry (ti_task x)) as [rc|]; [|go]. destruct (retriable e); [|go]. apply nb_bind; [go|]. intros []; [go|].
    apply nb_bind; [go|]. intros n. apply nb_retry_loop.
  Qed.
  Lemma nb_iter_step t it : nb true (iter_step E t it).
  Proof.
    unfold iter_step. destruct (iter_next it) as [it' o]. apply nb_bind; [go|]. intros _. destruct o as [[[k v] ix]|]; [|go].
    apply nb_bind; [go|]. intros _. apply nb_bind; [apply nb_eval_retry|]. intros [|[]]; go.
  Qed.
  Lemma nb_beh_eval ty t : nb true (beh_eval E ty t).
  Proof.
    destruct ty; cbn [beh_eval].
    - unfold basic_eval. apply nb_bind; [go|]. intros x. destruct (bool_decide _); [go|]. apply nb_bind; [apply nb_eval_retry|intros; go].
    - unfold iter_eval. apply nb_bind; [go|]. intros x. destruct (bool_decide _); [go|]. destruct (ti_wd x !! "_iterator") as [[]|]; try (by go).
      + apply nb_iter_step.
      + destruct (t_loop (ti_task x)); [|go]. apply nb_bind; [go|]. intros [|v]; [go|]. destruct v; try (by go); (destruct (make_iter E _); [|go]);
        (apply nb_bind; [go|]; intros _; apply nb_bind; [go|]; intros _; apply nb_iter_step).
    - unfold dw_eval. apply nb_bind; [go|]. intros x. destruct (bool_decide _); [go|]. apply nb_bind; [go|]. intros _.
      apply nb_bind; [apply nb_eval_retry|]. intros [|[]]; go.
  Qed.
  Lemma nb_beh_post ty t : nb true (beh_post E ty t).
  Proof.
    destruct ty; cbn [beh_post].
    - unfold basic_post. apply nb_bind; [apply nb_post|]. intros r. apply nb_bind; [go|]. intros x. destruct r as [e|]; [|go].
      destruct e; try (by go). destruct (t_retry (ti_task x)); [|go]. apply nb_bind; [go|]. intros [|[z iv]]; [go|].
      destruct (0 <? z)%Z; [|go]. apply nb_bind; [go|]. intros _. apply nb_bind; [apply nb_eval_retry|intros; go].
    - unfold iter_post. apply nb_bind; [apply nb_post|]. intros []; go.
    - unfold dw_post. apply nb_bind; [go|]. intros _. apply nb_bind; [apply nb_post|]. intros []; go.
  Qed.
  Lemma nb_recover t m : nb true (exec_recover E t m).
  Proof.
    unfold exec_recover. apply nb_bind; [go|]. intros x. apply nb_bind; [go|]. intros y. cbv zeta. destruct (i_handling y); [go|].
    apply nb_bind; [go|]. intros _. apply nb_global, nb_enter_top.
  Qed.
  Lemma nb_exec_first t : nb true (exec_first E t).
  Proof.
    unfold exec_first. apply nb_bind; [go|]. intros x. cbv zeta. destruct (bool_decide _); [go|].
    apply nb_bind; [destruct (bool_decide _); [apply nb_beh_post|apply nb_beh_eval]|].
    intros [e|[]]; try (by go). apply nb_bind; [apply nb_handle_error|intros; go].
  Qed.
  Lemma nb_done_first t : nb true (done_first E t).
  Proof.
    unfold done_first. apply nb_bind; [go|]. intros x. cbv zeta. apply nb_bind.
    { destruct (bool_decide _); go; apply nb_beh_done. }
    intros [e|[nt es]].
    - apply nb_bind; [go|]. intros y. apply nb_bind; [go|]. intros _. apply nb_bind; [apply nb_global, nb_enter_top|intros; go].
    - apply nb_bind; [go|]. intros fd. apply nb_bind; [go|]. intros y. destruct (_ || _); go.
  Qed.
  Lemma nb_piece th : nb true (piece E th).
  Proof.
    assert (Hr : forall t msg, nb true (bind (exec_recover E t msg) (fun _ => ret ThEnd))).
    { intros. apply nb_bind; [apply nb_recover|intros; go]. }
    destruct th as [w t|t|t es|t| | |]; cbn [piece]; [| | | |go..].
    - apply nb_bind; [go|]. intros y. apply nb_bind; [go|]. intros _. apply nb_catch; [apply nb_exec_first|by apply Hr].
    - apply nb_catch; [|by apply Hr]. apply nb_bind; [apply nb_done_first|intros; go].
    - apply nb_catch; [|by apply Hr]. apply nb_bind; [go|]. intros x. apply nb_bind; [apply nb_enter_top|intros; go].
    - apply nb_catch; [|by apply Hr]. apply nb_bind; [go|]. intros x. go.
  Qed.

  (** *** Interleavings *)
  Definition res {A} (P : A -> Prop) (m : M A) : Prop := forall s a s', m s = (Ok a, s') -> P a.
  Lemma res_ret {A} (P : A -> Prop) a : P a -> res P (ret a).
  Proof. by intros H s a' s' [= <- <-]. Qed.
  Lemma res_bind {A B} (P : B -> Prop) (m : M A) k : (forall a, res P (k a)) -> res P (bind m k).
  Proof. intros H s b s' Hb. apply bind_ok in Hb as (a & s1 & _ & Hb). by eapply H. Qed.
  Lemma res_catch {A} (P : A -> Prop) (m : M A) h : res P m -> (forall e, res P (h e)) -> res P (catch m h).
  Proof. intros Hm Hh s a s' H. unfold catch in H. destruct (m s) as [[] s1] eqn:E1; simplify_eq; [by eapply Hm|by eapply Hh]. Qed.
  Ltac rs := repeat first [ (apply res_ret; done) | lazymatch goal with
    | |- res _ (bind _ _) => apply res_bind; intros ?
    | |- res _ (catch _ _) => apply res_catch; [|intros ?]
    | |- res _ (let _ := _ in _) => cbv zeta
    | |- res _ (match ?x with _ => _ end) => destruct x
    | |- res _ (exec_first _ _) => unfold exec_first
    | |- res _ (ret (match ?x with _ => _ end)) => destruct x
    end ].
  Lemma piece_stuck th s th' s' : piece E th s = (Ok th', s') -> th <> ThStuck -> th' <> ThStuck.
  Proof.
    intros Hp Hn. revert s th' s' Hp. change (res (fun th' => th' <> ThStuck) (piece E th)).
    destruct th as [w t|t|t es|t| | |]; cbn [piece]; [rs..| | |]; try done; rs.
  Qed.
  Definition free (c : conc) : Prop :=
    skips (s_log (c_st c)) \/ (s_lock (c_st c) = false /\ Forall (fun th => th <> ThStuck) (c_threads c)).
  Lemma free_step ch c : free c -> free (conc_step E ch c).
  Proof.
    intros [H|[H1 H2]].
    - left. destruct ch as [|k]; cbn [conc_step].
      + unfold take_item. destruct (s_insts (c_st c) !! 0%nat); [|done]. destruct (bool_decide _); [|done].
        destruct (s_queue (c_st c)) as [|[w t] q]; done.
      + unfold advance. destruct (c_threads c !! k) as [th|]; [|done]. destruct (nb_piece th (c_st c)) as (l & Hl & _).
        destruct (piece E th (c_st c)) as [o s']. cbn in *. rewrite Hl. by apply skips_r.
    - destruct ch as [|k]; cbn [conc_step].
      + right. unfold take_item. destruct (s_insts (c_st c) !! 0%nat); [|done]. destruct (bool_decide _); [|done].
        destruct (s_queue (c_st c)) as [|[w t] q]; [done|]. cbn. split; [done|]. apply Forall_app. split; [done|]. by repeat constructor.
      + unfold advance. destruct (c_threads c !! k) as [th|] eqn:Hth; [|by right]. destruct (nb_piece th (c_st c)) as (l & Hl & H).
        pose proof (fun th' s' H => piece_stuck th (c_st c) th' s' H) as Hp. destruct (piece E th (c_st c)) as [o s']. cbn [fst snd c_st c_threads] in *.
        assert (Hn : th <> ThStuck) by (by eapply Forall_lookup_1 in H2).
        destruct H as [H|[[_ ?]|(H & _ & H')]]; [left; cbn; rewrite Hl; by apply skips_l|congruence|]. right. cbn. split; [by rewrite H'|].
        apply Forall_insert; [done|]. destruct o as [th'| | |]; [|done..]. cbn. by eapply Hp.
  Qed.
  Lemma free_run chs c : free c -> free (conc_run E chs c).
  Proof. revert c. induction chs as [|ch chs IH]; intros c H; [done|]. apply IH. by apply free_step. Qed.
  Lemma free_start d uri ins : free (conc_start E d uri ins).
  Proof.
    unfold free, conc_start, start. cbn [c_st c_threads]. destruct (nb_start_instance 0%nat ins (init_st d uri)) as (l & Hl & [H|[[_ ?]|(_ & _ & H)]]).
    - left. rewrite Hl. by apply skips_l.
    - done.
    - right. split; [by rewrite H|constructor].
  Qed.
  Lemma only_skips_block d uri ins chs : let c := conc_run E chs (conc_start E d uri ins) in
    ThStuck ∈ c_threads c -> exists i id, EvTaskUpd i id TSkipped ∈ trace (c_st c).
  Proof.
    cbv zeta. intros H. destruct (free_run chs _ (free_start d uri ins)) as [(i & id & Hs)|[_ Hf]].
    - exists i, id. unfold trace. rewrite elem_of_list_In, <- in_rev. by apply elem_of_list_In.
    - rewrite Forall_forall in Hf. by destruct (Hf _ H).
  Qed.
End Nb.
