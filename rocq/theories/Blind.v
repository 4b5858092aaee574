(** The engine never reads its log; resumed runs. No Go counterpart (proof infrastructure). *)
From Verif Require Export SpecResume Run.
Local Open Scope Z_scope.

(** ** The log is never read *)

(** The main flow has a result handler. *)
Definition handled (s : st) : Prop := forall y, s_insts s !! 0%nat = Some y -> i_handler y = true.
(** The outcome, the new state and the new events do not depend on the log; a result handler stays. *)
Definition blind {A} (m : M A) : Prop := forall s, (handled s -> handled (m s).2) /\
  exists new, forall l, m (set_s_log l s) = ((m s).1, set_s_log (new ++ l) (m s).2).

Section Blind.
  Context (E : env).
  Local Set Default Proof Using "Type".

  Lemma blind_here {A} (o : out A) : blind (fun s => (o, s)).
  Proof. intros s. split; [done|]. by exists []. Qed.
  Lemma blind_ret {A} (a : A) : blind (ret a).
  Proof. apply blind_here. Qed.
  Lemma blind_panic {A} msg : blind (A:=A) (panic msg).
  Proof. apply blind_here. Qed.
  Lemma blind_fuel {A} : blind (A:=A) out_of_fuel.
  Proof. apply blind_here. Qed.
  Lemma blind_bind {A B} (m : M A) (k : A -> M B) : blind m -> (forall a, blind (k a)) -> blind (bind m k).
  Proof.
    intros Hm Hk s. destruct (Hm s) as [h1 [n1 H1]]. unfold bind. destruct (m s) as [[a| | |] s1]; cbn [fst snd] in *.
    - destruct (Hk a s1) as [h2 [n2 H2]]. split; [auto|]. exists (n2 ++ n1). intros l. rewrite H1, H2. by rewrite <- app_assoc.
    - split; [done|]. exists n1. intros l. by rewrite H1.
    - split; [done|]. exists n1. intros l. by rewrite H1.
    - split; [done|]. exists n1. intros l. by rewrite H1.
  Qed.
  Lemma blind_catch {A} (m : M A) h : blind m -> (forall e, blind (h e)) -> blind (catch m h).
  Proof.
    intros Hm Hk s. destruct (Hm s) as [h1 [n1 H1]]. unfold catch. destruct (m s) as [[a|e| |] s1]; cbn [fst snd] in *.
    - split; [done|]. exists n1. intros l. by rewrite H1.
    - destruct (Hk e s1) as [h2 [n2 H2]]. split; [auto|]. exists (n2 ++ n1). intros l. rewrite H1, H2. by rewrite <- app_assoc.
    - split; [done|]. exists n1. intros l. by rewrite H1.
    - split; [done|]. exists n1. intros l. by rewrite H1.
  Qed.
  Lemma blind_finally {A} (m : M A) f : blind m -> blind f -> blind (finally m f).
  Proof.
    intros Hm Hf. unfold finally. apply blind_bind.
    - apply blind_catch; [apply blind_bind; [done|intros; apply blind_ret]|intros; apply blind_ret].
    - intros r. apply blind_bind; [done|]. intros _. destruct r; [apply blind_panic|apply blind_ret].
  Qed.
  Lemma blind_iterM {A} (f : A -> M unit) l : (forall x, blind (f x)) -> blind (iterM f l).
  Proof. intros Hf. induction l; simpl; [apply blind_ret|]. by apply blind_bind. Qed.
  Lemma blind_get {A} (k : st -> M A) : (forall s, blind (k s)) -> (forall s l, k (set_s_log l s) = k s) -> blind (bind get k).
  Proof.
    intros H Hs s. destruct (H s s) as [h1 [n1 H1]]. split; [done|]. exists n1. intros l. unfold bind, get. by rewrite Hs, H1.
  Qed.
  Lemma blind_get_inst i : blind (get_inst i).
  Proof. intros s. cbv [get_inst bind get]. split; [|exists []; intros l; cbn [s_insts set_s_log]]; by destruct (s_insts s !! i). Qed.
  Lemma blind_get_ti t : blind (get_ti t).
  Proof. intros s. cbv [get_ti bind get]. split; [|exists []; intros l; cbn [s_tis set_s_log]]; by destruct (s_tis s !! t). Qed.
  Lemma blind_modify f : (forall s l, f (set_s_log l s) = set_s_log l (f s)) -> (forall s, s_insts (f s) = s_insts s) -> blind (modify f).
  Proof. intros H1 H2 s. cbv [modify]. cbn [fst snd]. split; [unfold handled; by rewrite H2|]. exists []. intros l. by rewrite H1. Qed.
  Lemma blind_upd_ti t f : blind (upd_ti t f).
  Proof. by apply blind_modify. Qed.
  Lemma blind_upd_inst i f : (forall x, i_handler x = true -> i_handler (f x) = true) -> blind (upd_inst i f).
  Proof.
    intros Hf s. split; [|by exists []]. cbn. intros H y. cbn. destruct (decide (i = 0%nat)) as [->|].
    - rewrite lookup_alter. destruct (s_insts s !! 0%nat) as [y0|] eqn:Hy; [|done]. intros [= <-]. by apply Hf, H.
    - rewrite lookup_alter_ne by done. apply H.
  Qed.
  Lemma blind_log e : blind (log_ev e).
  Proof. intros s. split; [done|]. by exists [e]. Qed.
  Lemma blind_tick : blind tick.
  Proof. unfold tick. apply blind_get; [|reflexivity]. intros s. apply blind_bind; [by apply blind_modify|intros; apply blind_ret]. Qed.
  Lemma blind_view t : blind (bind get (fun s => ret (view_of s t))).
  Proof. apply blind_get; [|reflexivity]. intros s. apply blind_ret. Qed.
  Lemma blind_ext {A} t (f : nat -> view -> A) : blind (ext t f).
  Proof. unfold ext. apply blind_bind; [apply blind_tick|]. intros n. apply blind_get; [|reflexivity]. intros s. apply blind_ret. Qed.
  Lemma blind_set_attrs tr i m : blind (set_attrs tr i m).
  Proof.
    unfold set_attrs. apply blind_bind; [apply blind_get_inst|]. intros _. apply blind_bind; [by apply blind_upd_inst|]. intros _. apply blind_log.
  Qed.
  Lemma blind_set_values i m : blind (set_values E i m).
  Proof. apply blind_set_attrs. Qed.
  Lemma blind_set_value i n v : blind (set_value E i n v).
  Proof. apply blind_set_attrs. Qed.
  Lemma blind_record : blind (record_state E).
  Proof.
    unfold record_state. destruct (e_rec E) as [m|]; [|apply blind_panic]. apply blind_bind.
    - destruct (record_snapshot m); [|apply blind_ret]. destruct (e_ext E); [|apply blind_panic]. apply blind_get; [|reflexivity]. intros s. apply blind_log.
    - intros _. destruct (record_steps m); [|apply blind_ret]. destruct (e_ext E); [apply blind_log|apply blind_panic].
  Qed.
  Lemma blind_return_data i : blind (get_return_data i).
  Proof.
    unfold get_return_data. apply blind_bind; [apply blind_get_inst|]. intros x. destruct (i_rdata x); [apply blind_ret|].
    destruct (d_md (i_def x)) as [[? [mdo|]]|]; [|apply blind_ret..]. apply blind_bind; [by apply blind_upd_inst|]. intros _. apply blind_ret.
  Qed.
  Lemma blind_set_flow_status i z : blind (set_flow_status E i z).
  Proof.
    unfold set_flow_status. apply blind_bind; [apply blind_get_inst|]. intros _. apply blind_bind; [by apply blind_upd_inst|]. intros _.
    apply blind_bind; [apply blind_log|]. intros _. unfold post_flow_event. destruct (e_listener E); [|apply blind_ret].
    apply blind_bind; [apply blind_get_inst|]. intros x. destruct (bool_decide _); [apply blind_log|].
    apply blind_bind; [|intros; apply blind_log]. apply blind_bind; [apply blind_return_data|]. intros. apply blind_ret.
  Qed.
  Lemma blind_find_task i tk : blind (find_or_create_task i tk).
  Proof.
    unfold find_or_create_task. apply blind_bind; [apply blind_get_inst|]. intros x. destruct (i_tasks x !! t_id tk); [apply blind_ret|].
    apply blind_bind.
    - unfold new_tinst. destruct (t_act tk); [|apply blind_panic]. apply blind_get; [|reflexivity]. intros s. apply blind_bind; [by apply blind_modify|intros; apply blind_ret].
    - intros t. apply blind_bind; [by apply blind_upd_inst|]. intros _. apply blind_bind; [apply blind_log|]. intros _. apply blind_ret.
  Qed.
  Lemma blind_new_embedded t uri d : blind (new_embedded t uri d).
  Proof.
    unfold new_embedded. apply blind_get; [|reflexivity]. intros s. apply blind_bind; [apply blind_get_ti|]. intros x. cbv zeta.
    apply blind_bind; [|intros; apply blind_bind; [apply blind_log|intros; apply blind_ret]].
    intros s1. split; [|by exists []]. intros H y. cbn. rewrite lookup_insert_ne by done. apply H.
  Qed.

  Ltac go := repeat first
    [ assumption
    | lazymatch goal with
      | |- blind (ret _) => apply blind_ret
      | |- blind (panic _) => apply blind_panic
      | |- blind out_of_fuel => apply blind_fuel
      | |- blind tick => apply blind_tick
      | |- blind (ext _ _) => apply blind_ext
      | |- blind (bind get (fun s => ret (view_of s _))) => apply blind_view
      | |- blind (get_ti _) => apply blind_get_ti
      | |- blind (get_inst _) => apply blind_get_inst
      | |- blind (log_ev _) => apply blind_log
      | |- blind (find_or_create_task _ _) => apply blind_find_task
      | |- blind (new_embedded _ _ _) => apply blind_new_embedded
      | |- blind (set_flow_status _ _ _) => apply blind_set_flow_status
      | |- blind (record_state _) => apply blind_record
      | |- blind (set_attrs _ _ _) => apply blind_set_attrs
      | |- blind (set_values _ _ _) => apply blind_set_values
      | |- blind (set_value _ _ _ _) => apply blind_set_value
      | |- blind (upd_ti _ _) => apply blind_upd_ti
      | |- blind (upd_inst _ _) => apply blind_upd_inst; done
      | |- blind (modify _) => apply blind_modify; intros; reflexivity
      | |- blind (iterM _ _) => apply blind_iterM; intros ?
      | |- blind (bind get _) => apply blind_get; [intros ?|reflexivity]
      | |- blind (bind (get_inst _) _) => apply blind_bind; [apply blind_get_inst|intros ?]
      | |- blind (bind _ _) => apply blind_bind; [|intros ?]
      | |- blind (catch _ _) => apply blind_catch; [|intros ?]
      | |- blind (finally _ _) => apply blind_finally
      | |- blind (let _ := _ in _) => cbv zeta
      | |- blind (match ?x with _ => _ end) => destruct x
      | |- blind (set_wd _ _ _) => unfold set_wd
      | |- blind (set_task_status _ _) => unfold set_task_status
      | |- blind (track_task _) => unfold track_task
      | |- blind (find_or_create_link _ _) => unfold find_or_create_link
      | |- blind (from_links _) => unfold from_links
      | |- blind (to_links _) => unfold to_links
      | |- blind (need_cov _ _ _) => unfold need_cov
      | |- blind (set_link_status _ _ _ _) => unfold set_link_status
      | |- blind (release_task _ _) => unfold release_task
      | |- blind (schedule_eval _) => unfold schedule_eval
      | |- blind (append_error_data _ _ _) => unfold append_error_data
      | |- blind (set_task_error _ _ _) => unfold set_task_error
      | |- blind (add_activity_coverage _ _) => unfold add_activity_coverage
      | |- blind (apply_settings _ _) => unfold apply_settings
      | |- blind (enter _) => unfold enter
      | |- blind (host_of _) => unfold host_of
      | |- blind clear_tasks => unfold clear_tasks
      | |- blind (entries_of _ _) => unfold entries_of
      | |- blind (eval_link _ _ _) => unfold eval_link
      | |- blind (done_link _ _ _ _ _) => unfold done_link
      | |- blind (beh_skip _ _) => unfold beh_skip
      | |- blind (beh_error _ _) => unfold beh_error
      | |- blind (flow_task_done _) => unfold flow_task_done
      | |- blind (parent_info _ _) => unfold parent_info
      | |- blind (icpt_id _) => unfold icpt_id
      | |- blind (apply_input_mapper _ _) => unfold apply_input_mapper
      | |- blind (apply_input_icpt _ _) => unfold apply_input_icpt
      | |- blind (set_exec_status _ _ _) => unfold set_exec_status
      | |- blind (apply_output_icpt _ _) => unfold apply_output_icpt
      | |- blind (apply_output_mapper _ _) => unfold apply_output_mapper
      | |- blind (handle_accumulation _ _) => unfold handle_accumulation
      | |- blind (guard_err _ _) => unfold guard_err
      | |- blind (recover_eval _ _) => unfold recover_eval
      | |- blind (has_output_icpt _ _) => unfold has_output_icpt
      | |- blind (retry_value _ _ _) => unfold retry_value
      | |- blind (retry_data _ _ _) => unfold retry_data
      | |- blind (retry_bound _) => unfold retry_bound
      | |- blind (iterate_on _ _ _) => unfold iterate_on
      | |- blind (init_index _) => unfold init_index
      | |- blind (update_index _) => unfold update_index
      | |- blind (check_cond _ _) => unfold check_cond
    end ].

  Lemma blind_done_links t i ls a : blind (done_links E t i ls a).
  Proof. revert a. induction ls as [|l ls IH]; intros a; simpl; [go|]. apply blind_bind; [go|]. intros []; [go|apply IH]. Qed.
  Lemma blind_beh_done t : blind (beh_done E t).
  Proof.
    unfold beh_done. apply blind_bind; [go|]. intros ls. apply blind_bind; [go|]. intros _. apply blind_bind; [go|]. intros x. cbv zeta.
    destruct ls; [go|]. apply blind_bind; [apply blind_done_links|]. intros [e|a]; go.
  Qed.
  Lemma blind_asserts t id b k l : blind (run_asserts E t id b k l).
  Proof. revert k. induction l as [|a l IH]; intros k; cbn [run_asserts]; [go|]. destruct (negb b), (as_empty a), (as_type a =? 1)%Z; go; apply IH. Qed.
  Lemma blind_apply_asserts t ty : blind (apply_asserts E t ty).
  Proof. unfold apply_asserts. go. apply blind_asserts. Qed.

  Lemma blind_enter_list skip i es : (forall t, blind (skip t)) -> blind (enter_list E skip i es).
  Proof.
    intros Hs. induction es as [|[tk z] es IH]; cbn [enter_list]; [go|]. apply blind_bind; [go|]. intros t. apply blind_bind; [go|]. intros x.
    destruct (e_conc E && ti_sched x); [done|]. apply blind_bind; [go|]. intros []; [done| |].
    - apply blind_bind; [go|]. intros []; [go|]. apply blind_bind; [go|]. intros _. apply blind_bind; [go|]. intros _. done.
    - apply blind_bind; [done|]. intros _. done.
  Qed.
  Lemma blind_with_lock {A} (m : M A) : blind m -> blind (with_lock E m).
  Proof. intros Hm. unfold with_lock. destruct (e_conc E); [|done]. apply blind_get; [|reflexivity]. intros s. destruct (s_lock s); [apply blind_here|]. go. Qed.
  Lemma blind_global ent i e : (forall j es, blind (ent j es)) -> blind (handle_global_error E ent i e).
  Proof. intros He. unfold handle_global_error. go. apply He. Qed.

  Lemma blind_complete i : blind (complete_flow E i).
  Proof. unfold complete_flow. go. Qed.
  Lemma blind_done ent t : (forall j es, blind (ent j es)) -> blind (handle_task_done E ent t).
  Proof.
    intros He. unfold handle_task_done. apply blind_bind; [go|]. intros x. cbv zeta. apply blind_bind.
    { destruct (bool_decide _); go; apply blind_beh_done. }
    intros [e|[nt es]].
    - apply blind_bind; [apply blind_get_inst|]. intros m. apply blind_bind; [go|]. intros _. by apply blind_global.
    - apply blind_bind; [go|]. intros fd. apply blind_bind; [apply blind_get_inst|]. intros y. apply blind_bind; [|intros; go].
      destruct (_ || _); [apply blind_complete|]. apply blind_bind; [apply He|intros; go].
  Qed.
  Lemma blind_enter_tasks n i es : blind (enter_tasks E n i es).
  Proof.
    revert i es. induction n as [|n IH]; intros i es; cbn [enter_tasks]; apply blind_with_lock, blind_enter_list; intros t; [apply blind_fuel|].
    by apply blind_done.
  Qed.
  Lemma blind_enter_top i es : blind (enter_top E i es).
  Proof. unfold enter_top. apply blind_bind; [apply blind_get_inst|]. intros x. apply blind_enter_tasks. Qed.
  Lemma blind_handle_error t e : blind (handle_task_error E t e).
  Proof.
    unfold handle_task_error. apply blind_bind; [go|]. intros _. apply blind_bind; [go|]. intros _. apply blind_bind; [go|]. intros r.
    apply blind_bind; [go|]. intros x. cbv zeta. destruct (r.1).
    - apply blind_bind; [go|]. intros _. apply blind_bind; [|intros; go]. destruct (r.2); [go|]. apply blind_bind; [apply blind_enter_top|intros; go].
    - apply blind_bind; [apply blind_get_inst|]. intros y. destruct (i_handling y); [go|]. apply blind_bind; [go|]. intros _. apply blind_global, blind_enter_top.
  Qed.
  Lemma blind_start_instance i m : blind (start_instance E i m).
  Proof.
    unfold start_instance. apply blind_bind; [apply blind_get_inst|]. intros x. apply blind_bind; [go|]. intros h. apply blind_bind; [go|]. intros _.
    apply blind_bind; [go|]. intros _. apply blind_bind; [go|]. intros _. apply blind_bind; [go|]. intros _. apply blind_bind; [apply blind_enter_top|intros; go].
  Qed.
  Lemma blind_start_subflow t uri ins : blind (start_subflow E t uri ins).
  Proof.
    unfold start_subflow. apply blind_bind; [go|]. intros n. destruct (e_def E n uri); [|go..]. apply blind_bind; [go|]. intros i.
    apply blind_bind; [apply blind_start_instance|]. intros _. go.
  Qed.
  (** Replying and returning. *)

  Lemma blind_reply i d e : blind (reply i d e).
  Proof. unfold reply. go. Qed.
  Lemma blind_return i d e : blind (return_ i d e).
  Proof. unfold return_. go. Qed.
  Lemma blind_run_act t a : blind (run_act E t a).
  Proof.
    induction a as [r|n v k IH|m k IH|n v k IH|d e k IH|d e k IH|uri ins k1 IH1 k2 IH2]; cbn [run_act]; (apply blind_bind; [go|]; intros x).
    1-4: go.
    - apply blind_bind; [apply blind_reply|done].
    - apply blind_bind; [apply blind_return|done].
    - apply blind_bind; [apply blind_start_subflow|]. intros []; done.
  Qed.

  (** *** Evaluating *)
  Lemma blind_call t : blind (call_activity E t).
  Proof.
    unfold call_activity. apply blind_bind; [go|]. intros x. cbv zeta. apply blind_bind; [go|]. intros _. apply blind_bind; [go|]. intros a.
    apply blind_bind; [apply blind_catch; [apply blind_run_act|intros; go]|]. intros [| |e0|msg]; [go|go| |go]. cbv zeta.
    apply blind_bind; [go|]. intros _. apply blind_bind; [go|]. intros _. apply blind_bind; [apply blind_get_inst|]. intros y. apply blind_bind; [go|]. intros _.
    apply blind_bind; [go|]. intros _. apply blind_bind; [|intros; go]. apply blind_catch; [|intros; go]. apply blind_bind; [apply blind_apply_asserts|intros; go].
  Qed.
  Lemma blind_finish t : blind (finish_activity E t).
  Proof.
    unfold finish_activity. apply blind_bind; [go|]. intros x. unfold guard_err. apply blind_bind; [go|]. intros []; [go|].
    apply blind_bind; [go|]. intros []; [go|]. apply blind_bind; [go|]. intros []; [go|]. apply blind_bind; [apply blind_apply_asserts|]. intros []; go.
  Qed.
  Lemma blind_eval_activity t : blind (eval_activity E t).
  Proof.
    unfold eval_activity, recover_eval. apply blind_catch; [|intros; go]. apply blind_bind; [go|]. intros x. destruct (t_act (ti_task x)) as [ac|]; [|go].
    unfold guard_err. apply blind_bind; [go|]. intros []; [go|]. apply blind_bind; [go|]. intros []; [|apply blind_finish].
    apply blind_bind; [go|]. intros []; [go|]. apply blind_bind; [go|]. intros [].
    - apply blind_bind; [go|]. intros _. apply blind_finish.
    - apply blind_bind; [apply blind_call|]. intros [|[]]; [go|apply blind_finish|go].
  Qed.
  Lemma blind_post t : blind (post_eval_activity E t).
  Proof.
    unfold post_eval_activity, recover_eval. apply blind_catch; [|intros; go]. apply blind_bind; [go|]. intros x. cbv zeta. apply blind_bind; [go|]. intros p.
    apply blind_bind.
    - destruct p; [|go]. apply blind_bind; [go|]. intros _. apply blind_bind; [apply blind_run_act|]. intros []; go.
    - intros [e|b]; [go|]. apply blind_bind; [go|]. intros y. destruct (ti_rerr y); [go|]. destruct b; [|go]. unfold guard_err.
      apply blind_bind; [go|]. intros []; [go|]. apply blind_bind; [go|]. intros []; [go|]. apply blind_bind; [apply blind_apply_asserts|]. intros []; go.
  Qed.
  Lemma blind_retry_loop n t r : blind (retry_loop E n t r).
  Proof.
    revert r. induction n as [|n IH]; intros r; cbn [retry_loop]; (apply blind_bind; [go|]); intros x; destruct r as [e|]; [|go| |go];
      destruct (t_retry (ti_task x)) as [rc|]; [|go| |go]; (destruct (retriable e); [|go]); (apply blind_bind; [go|]); intros [e'|[z iv]]; [go| |go|];
      (destruct (0 <? z)%Z; [|go]); [go|]. apply blind_bind; [go|]. intros _. apply blind_bind; [apply blind_eval_activity|]. apply IH.
  Qed.
  Lemma blind_eval_retry t : blind (eval_retry E t).
  Proof.
    unfold eval_retry. apply blind_bind; [apply blind_eval_activity|]. intros r. apply blind_bind; [go|]. intros x. destruct r as [e|]; [|go].
    destruct (t_retry (ti_task x)) as [rc|]; [|go]. destruct (retriable e); [|go]. apply blind_bind; [go|]. intros []; [go|].
    apply blind_bind; [go|]. intros n. apply blind_retry_loop.
  Qed.
  Lemma blind_iter_step t it : blind (iter_step E t it).
  Proof.
    unfold iter_step. destruct (iter_next it) as [it' o]. apply blind_bind; [go|]. intros _. destruct o as [[[k v] ix]|]; [|go].
    apply blind_bind; [go|]. intros _. apply blind_bind; [apply blind_eval_retry|]. intros [|[]]; go.
  Qed.
  Lemma blind_beh_eval ty t : blind (beh_eval E ty t).
  Proof.
    destruct ty; cbn [beh_eval].
    - unfold basic_eval. apply blind_bind; [go|]. intros x. destruct (bool_decide _); [go|]. apply blind_bind; [apply blind_eval_retry|intros; go].
    - unfold iter_eval. apply blind_bind; [go|]. intros x. destruct (bool_decide _); [go|]. destruct (ti_wd x !! "_iterator") as [[]|]; try (by go).
      + apply blind_iter_step.
      + destruct (t_loop (ti_task x)); [|go]. apply blind_bind; [go|]. intros [|v]; [go|]. destruct v; try (by go); (destruct (make_iter E _); [|go]);
        (apply blind_bind; [go|]; intros _; apply blind_bind; [go|]; intros _; apply blind_iter_step).
    - unfold dw_eval. apply blind_bind; [go|]. intros x. destruct (bool_decide _); [go|]. apply blind_bind; [go|]. intros _.
      apply blind_bind; [apply blind_eval_retry|]. intros [|[]]; go.
  Qed.
  Lemma blind_beh_post ty t : blind (beh_post E ty t).
  Proof.
    destruct ty; cbn [beh_post].
    - unfold basic_post. apply blind_bind; [apply blind_post|]. intros r. apply blind_bind; [go|]. intros x. destruct r as [e|]; [|go].
      destruct e; try (by go). destruct (t_retry (ti_task x)); [|go]. apply blind_bind; [go|]. intros [|[z iv]]; [go|].
      destruct (0 <? z)%Z; [|go]. apply blind_bind; [go|]. intros _. apply blind_bind; [apply blind_eval_retry|intros; go].
    - unfold iter_post. apply blind_bind; [apply blind_post|]. intros []; go.
    - unfold dw_post. apply blind_bind; [go|]. intros _. apply blind_bind; [apply blind_post|]. intros []; go.
  Qed.
  Lemma blind_recover t m : blind (exec_recover E t m).
  Proof.
    unfold exec_recover. apply blind_bind; [go|]. intros x. apply blind_bind; [apply blind_get_inst|]. intros y. cbv zeta. destruct (i_handling y); [go|].
    apply blind_bind; [go|]. intros _. apply blind_global, blind_enter_top.
  Qed.
  Lemma blind_exec t : blind (exec_task E t).
  Proof.
    unfold exec_task. apply blind_catch; [|apply blind_recover]. unfold exec_body. apply blind_bind; [go|]. intros x. cbv zeta.
    assert (Hd : forall t, blind (task_done E t)) by (intros; apply blind_done, blind_enter_top).
    destruct (bool_decide _); [go|]. apply blind_bind; [destruct (bool_decide _); [apply blind_beh_post|apply blind_beh_eval]|].
    intros [e|[]]; try apply Hd; try (by go). apply blind_handle_error.
  Qed.
  Lemma blind_do_step : blind (do_step E).
  Proof.
    unfold do_step. apply blind_bind; [go|]. intros _. apply blind_bind; [apply blind_get_inst|]. intros x. destruct (bool_decide _); [|go].
    apply blind_get; [|reflexivity]. intros s. destruct (s_queue s) as [|[w t] q]; [go|]. apply blind_bind; [go|]. intros y. apply blind_bind; [go|]. intros _.
    apply blind_bind; [go|]. intros _. apply blind_bind; [apply blind_exec|intros; go].
  Qed.

  Lemma blind_lap : blind (lap E).
  Proof. unfold lap. apply blind_bind; [apply blind_do_step|]. intros b. go. Qed.
  Lemma blind_run_loop n k : blind (run_loop E n k).
  Proof.
    revert k. induction n as [|n IH]; intros k; cbn [run_loop]; [go|]. apply blind_bind; [apply blind_get_inst|]. intros x. destruct (_ <? _)%Z; [|go].
    apply blind_bind; [apply blind_do_step|]. intros more. apply blind_bind; [go|]. intros _. destruct more; [apply IH|go].
  Qed.
  Lemma blind_flow_asserts id ty b k l f : blind (flow_asserts E id ty b k l f).
  Proof.
    revert k f. induction l as [|a l IH]; intros k f; cbn [flow_asserts]; [go|]. destruct (negb b); [apply blind_bind; [go|done]|].
    destruct (as_empty a); [apply blind_bind; [go|done]|]. apply blind_bind.
    { unfold ext_flow. go. }
    intros []; [apply blind_bind; [go|done]|apply blind_bind; [go|done]|go].
  Qed.
  Lemma blind_apply_flow_asserts ty : blind (apply_flow_asserts E ty).
  Proof.
    unfold apply_flow_asserts. apply blind_bind; [apply blind_get_inst|]. intros x. cbv zeta. destruct (task_icpt E _); [|go].
    apply blind_bind; [go|]. intros _. apply blind_flow_asserts.
  Qed.
  Lemma blind_run_finish ro k : blind (run_finish E ro k).
  Proof.
    unfold run_finish. apply blind_bind; [apply blind_get_inst|]. intros x. destruct (_ && _); [go|]. apply blind_bind.
    - destruct (_ =? _)%Z.
      + apply blind_bind; [apply blind_return_data|]. intros r. apply blind_bind; [go|]. intros _. apply blind_bind; [apply blind_apply_flow_asserts|]. intros; go.
      + destruct (_ =? _)%Z; [|go]. apply blind_bind; [apply blind_apply_flow_asserts|]. intros; go.
    - intros _. destruct (e_ext E); [|go]. apply blind_bind; [unfold flow_state; apply blind_bind; [apply blind_return_data|intros; go]|intros; go].
  Qed.
End Blind.

(** ** The loop in two parts *)

Lemma run_loop_split E n m k s s' : run_loop E n k s = (Ok (k + Z.of_nat n), s') -> ~ idle s' ->
  run_loop E (n + m) k s = run_loop E m (k + Z.of_nat n) s'.
Proof.
  revert k s. induction n as [|n IH]; intros k s.
  { cbn [run_loop]. intros [= _ <-] _. cbn [Nat.add]. by replace (k + Z.of_nat 0) with k by lia. }
  rewrite Nat.add_succ_l, !run_loop_S. destruct (s_insts s !! 0%nat) as [y|]; [|done].
  destruct (_ <? _); [|intros [= H _]; lia]. unfold bind. destruct (lap E s) as [[[]| | |] s1] eqn:Hl; try done.
  - replace (k + Z.of_nat (S n)) with (k + 1 + Z.of_nat n) by lia. apply IH.
  - intros [= H <-] Hi. exfalso. apply Hi. destruct (idle_laps E 1 s) as [_ H1].
    + apply (lap_false_idle E). by rewrite Hl.
    + cbn in H1. by rewrite Hl in H1.
Qed.
Lemma run_loop_shift E n k j s : run_loop E n (k + j) s =
  (match (run_loop E n k s).1 with Ok z => Ok (z + j) | Panic e => Panic e | Fuel => Fuel | Blocked => Blocked end, (run_loop E n k s).2).
Proof.
  revert k s. induction n as [|n IH]; intros k s; [done|]. rewrite !run_loop_S. destruct (s_insts s !! 0%nat) as [y|]; [|done].
  destruct (_ <? _); [|done]. unfold bind. destruct (lap E s) as [[[]| | |] s1]; try done.
  - replace (k + j + 1) with (k + 1 + j) by lia. apply IH.
  - cbn. by replace (k + j + 1) with (k + 1 + j) by lia.
Qed.
Lemma finish_same E ro ro' k k' : (k =? ro_max ro) = (k' =? ro_max ro') -> run_finish E ro k = run_finish E ro' k'.
Proof. intros H. unfold run_finish. by rewrite H. Qed.

Definition body (E : env) (ro : run_opts) (n : nat) (k : Z) : M unit := bind (run_loop E n k) (run_finish E ro).
Lemma blind_body E ro n k : blind (body E ro n k).
Proof. apply blind_bind; [apply blind_run_loop|]. intros. apply blind_run_finish. Qed.
Lemma body_split E ro ro' n m k k' s s' : run_loop E n k s = (Ok (k + Z.of_nat n), s') -> ~ idle s' ->
  ro_max ro = k + Z.of_nat n + (ro_max ro' - k') -> body E ro (n + m) k s = body E ro' m k' s'.
Proof.
  intros H1 H2 H3. unfold body, bind. rewrite (run_loop_split _ _ _ _ _ _ H1 H2).
  replace (k + Z.of_nat n) with (k' + (k + Z.of_nat n - k')) by lia. rewrite run_loop_shift.
  destruct (run_loop E m k' s') as [[z| | |] s1]; try done. cbn [fst snd]. erewrite finish_same; [done|]. rewrite H3.
  destruct (Z.eqb_spec z (ro_max ro')), (Z.eqb_spec (z + (k + Z.of_nat n - k')) (k + Z.of_nat n + (ro_max ro' - k'))); try done; lia.
Qed.

(** The last signal of a run. *)
Definition signal (dt : bool) (o : out unit) : list event :=
  match o with Ok _ | Panic _ => if dt then [] else [EvHandlerDone] | _ => [] end.
Lemma set_log_same s : set_s_log (s_log s) s = s.
Proof. by destruct s. Qed.
Lemma finally_signal (m : M unit) (dt : bool) s : finally m (if dt then ret tt else log_ev EvHandlerDone) s =
  ((m s).1, set_s_log (signal dt (m s).1 ++ s_log (m s).2) (m s).2).
Proof.
  unfold finally, bind, catch. destruct (m s) as [[[]| | |] s1]; destruct dt; cbn; try done; by rewrite set_log_same.
Qed.

Lemma ok_bind {A B} (m : M A) (k : A -> M B) s b s2 : bind m k s = (Ok b, s2) -> exists a s1, m s = (Ok a, s1) /\ k a s1 = (Ok b, s2).
Proof. unfold bind. destruct (m s) as [[a| | |] s1]; try done. eauto. Qed.
Lemma begin_handled E ro ins s : (run_begin E ro ins s).1 = Ok tt -> handled (run_begin E ro ins s).2.
Proof.
  intros H. destruct (run_begin E ro ins s) as [o s'] eqn:Hb. cbn [fst snd] in *. subst o. unfold run_begin, run_prepare in Hb.
  apply ok_bind in Hb as ([] & s5 & Hb & H6). apply ok_bind in Hb as ([] & s1 & _ & Hb). apply ok_bind in Hb as ([] & s2 & _ & Hb).
  apply ok_bind in Hb as ([] & s3 & _ & Hb). apply ok_bind in Hb as ([] & s4 & H4 & H5).
  assert (Hh : handled s4).
  { cbv [upd_inst modify] in H4. injection H4 as <-. intros y. cbn. rewrite lookup_alter. destruct (s_insts s3 !! 0%nat); [|done]. by intros [= <-]. }
  assert (B1 : blind (if e_ext E then if (ro_init ro <=? 0)%Z then record_state E else log_ev EvSkipStep else ret tt)).
  { destruct (e_ext E); [|apply blind_ret]. destruct (_ <=? _)%Z; [apply blind_record|apply blind_log]. }
  assert (B2 : blind (run_head E ro)).
  { unfold run_head. apply blind_bind; [destruct (ro_detach ro)|intros; destruct (ro_retid ro)]; first [apply blind_log|apply blind_ret]. }
  destruct (B1 s4) as [B3 _]. rewrite H5 in B3. destruct (B2 s5) as [B4 _]. rewrite H6 in B4. auto.
Qed.

(** ** Resuming *)

Section Resume.
  Context (E : env) (ro ro' : run_opts) (d : defn) (uri : string) (ins : vmap).
  Context (HX : e_ext E = false) (HE : ro_event ro' = "").
  Context (HM : first_count ro <= ro_max ro) (HM' : first_count ro' <= ro_max ro').
  Local Set Default Proof Using "Type*".
  Notation s0 := (run_begin E ro ins (init_st d uri)).2.
  Notation n := (Z.to_nat (ro_max ro - first_count ro)).
  Notation n' := (Z.to_nat (ro_max ro' - first_count ro')).
  Notation stopped := (run_flow E ro d uri ins).2.

  (** The run that was stopped. *)
  Lemma stopped_at : (run_flow E ro d uri ins).1 = Ok tt -> main_status stopped = Some FActive -> s_queue stopped <> [] ->
    (run_begin E ro ins (init_st d uri)).1 = Ok tt /\
    exists s1, run_loop E n (first_count ro) s0 = (Ok (ro_max ro), s1) /\ ~ idle s1 /\ handled s1 /\ is_Some (s_insts s1 !! 0%nat) /\
      stopped = set_s_log (signal (ro_detach ro) (Ok tt) ++ EvResult None (Some (limit_err E ro)) :: s_log s1) s1.
  Proof.
    intros Ho Ha Hq. assert (Hb : (run_begin E ro ins (init_st d uri)).1 = Ok tt).
    { destruct (out_ok (run_begin E ro ins (init_st d uri)).1) as [H|H]; [done|]. destruct (run_flow_early _ _ _ _ _ H) as [_ H']. congruence. }
    split; [done|]. rewrite (run_flow_body E ro d uri ins Hb), finally_signal in Ho, Ha, Hq |- *. cbn [fst snd] in *.
    pose proof (begin_handled _ _ _ _ Hb) as Hh. revert Hh Ho Ha Hq. set (s := s0). clearbody s. intros Hh Ho Ha Hq.
    destruct (run_loop_shape E n (first_count ro) s) as (m & Hm & _ & Hs & Hk).
    destruct (blind_run_loop E n (first_count ro) s) as [Hh1 _]. specialize (Hh1 Hh).
    unfold bind in *. destruct (run_loop E n (first_count ro) s) as [[k| | |] s1] eqn:Hl; try done. cbn [fst snd] in *.
    destruct (Hk k eq_refl) as [-> Hc]. destruct (run_finish E ro (first_count ro + Z.of_nat m) s1) as [o s2] eqn:Hf. cbn [fst snd] in *. subst o.
    destruct (s_insts s1 !! 0%nat) as [y|] eqn:Hy; cycle 1.
    { unfold run_finish, get_inst, bind, get in Hf. by rewrite Hy in Hf. }
    pose proof (run_finish_results E ro (first_count ro + Z.of_nat m) s1 y Hy tt s2 Hf) as (_ & _ & _ & Hst).
    unfold main_status in *. cbn [s_insts set_s_log] in Ha. rewrite Hst in Ha. injection Ha as Ha.
    assert (Hf' : s_queue s2 = s_queue s1 /\ (first_count ro + Z.of_nat m = ro_max ro -> s2 = set_s_log (EvResult None (Some (limit_err E ro)) :: s_log s1) s1)).
    { revert Hf. unfold run_finish, bind at 1, get_inst, bind at 1, get. rewrite Hy. unfold ret at 1. rewrite Ha, HX. cbn.
      destruct (Z.eqb_spec (first_count ro + Z.of_nat m) (ro_max ro)); cbn; intros [= <-]; split; try done. }
    destruct Hf' as [Hq' Hf']. cbn [s_queue set_s_log] in Hq. rewrite Hq' in Hq.
    assert (Hi : ~ idle s1). { intros (y' & Hy' & [H|H]); [|done]. rewrite Hy in Hy'. injection Hy' as <-. done. }
    assert (m = n) as ->.
    { destruct Hc as [Hc|[(z & Hz & Hc)|(m' & -> & Hc)]]; [done| |].
      - rewrite <- Hs, Hy in Hz. cbn in Hz. injection Hz as <-. rewrite Ha in Hc. exfalso. by apply Hc.
      - exfalso. apply Hi. rewrite Hs, laps_S. apply (idle_laps E 1). by apply (lap_false_idle E). }
    replace (first_count ro + Z.of_nat n) with (ro_max ro) in * by lia. exists s1. split_and!; [done|done|done|by eexists|].
    rewrite (Hf' eq_refl). done.
  Qed.

  (** Resuming it. *)
  Definition calls : list event := (if ro_retid ro' then [EvResult (Some {[ "id" := VStr (e_id E) ]}) None] else []) ++ (if ro_detach ro' then [EvHandlerDone] else []).
  Lemma resume_body s1 l : handled s1 -> is_Some (s_insts s1 !! 0%nat) ->
    let b := body E ro' n' (first_count ro') (set_s_log (calls ++ l) s1) in
    run_resume E ro' ∅ (set_s_log l s1) = (b.1, set_s_log (signal (ro_detach ro') b.1 ++ s_log b.2) b.2).
  Proof.
    intros Hh [y Hy]. cbv zeta. unfold run_resume. rewrite HX, HE. unfold update_attrs. rewrite bool_decide_eq_true_2 by done.
    cbn [String.eqb]. assert (Hu : upd_inst 0 (set_i_handler true) (set_s_log l s1) = (Ok tt, set_s_log l s1)).
    { unfold upd_inst, modify. f_equal. cbn [s_insts set_s_log]. rewrite alter_id; [by destruct s1|]. intros z Hz. pose proof (Hh z Hz).
      destruct z. cbn in *. by subst. }
    unfold bind at 1, ret at 1. cbn iota. unfold bind at 1, ret at 1. cbn iota. unfold bind at 1, ret at 1. cbn iota.
    unfold bind at 1. rewrite Hu. unfold bind at 1, ret at 1. cbn iota. unfold run_body, bind at 1.
    assert (Hr : run_head E ro' (set_s_log l s1) = (Ok tt, set_s_log (calls ++ l) s1)).
    { unfold run_head, calls, bind, log_ev, modify, ret. destruct (ro_detach ro'), (ro_retid ro'); done. }
    rewrite Hr. cbv zeta. rewrite finally_signal. unfold body, first_count.
    replace (if 0 <? ro_init ro' then ro_init ro' - 1 else 0) with (Z.max 0 (ro_init ro' - 1)); [done|].
    destruct (Z.ltb_spec 0 (ro_init ro')); lia.
  Qed.

  Lemma resumed_run : (run_flow E ro d uri ins).1 = Ok tt -> main_status stopped = Some FActive -> s_queue stopped <> [] ->
    let again := run_resume E ro' ∅ stopped in let once := run_flow E (ro_both ro ro') d uri ins in
    again.1 = once.1 /\ set_s_log [] again.2 = set_s_log [] once.2 /\
    executed again.2 = executed once.2 /\ evaluations again.2 = evaluations once.2 /\
    exists before later, delivered stopped = before ++ [(None, Some (limit_err E ro))] /\ delivered once.2 = before ++ later /\
      delivered again.2 = delivered stopped ++ (if ro_retid ro' then [(Some {[ "id" := VStr (e_id E) ]}, None)] else []) ++ later.
  Proof.
    intros Ho Ha Hq. cbv zeta. destruct (stopped_at Ho Ha Hq) as (Hb & s1 & Hl & Hi & Hh & Hy & Hs).
    assert (Hb' : run_begin E (ro_both ro ro') ins (init_st d uri) = run_begin E ro ins (init_st d uri)) by done.
    assert (Hb2 : (run_begin E (ro_both ro ro') ins (init_st d uri)).1 = Ok tt) by by rewrite Hb'.
    rewrite (run_flow_body E (ro_both ro ro') d uri ins Hb2), finally_signal, Hb'.
    change (first_count (ro_both ro ro')) with (first_count ro).
    replace (Z.to_nat (ro_max (ro_both ro ro') - first_count ro)) with (n + n')%nat by (cbn; lia).
    change (bind (run_loop E (n + n') (first_count ro)) (run_finish E (ro_both ro ro'))) with (body E (ro_both ro ro') (n + n') (first_count ro)).
    assert (Hl' : run_loop E n (first_count ro) s0 = (Ok (first_count ro + Z.of_nat n), s1)) by (replace (first_count ro + Z.of_nat n) with (ro_max ro) by lia; exact Hl).
    rewrite (body_split E (ro_both ro ro') ro' n n' _ (first_count ro') _ _ Hl' Hi) by (cbn; lia).
    rewrite Hs, resume_body by done. cbv zeta. destruct (blind_body E ro' n' (first_count ro') s1) as [_ [new Hn]].
    assert (Hd : s_log (body E ro' n' (first_count ro') s1).2 = new ++ s_log s1).
    { pose proof (Hn (s_log s1)) as H. rewrite set_log_same in H. by rewrite H at 1. }
    rewrite Hn. cbn [fst snd]. destruct (body E ro' n' (first_count ro') s1) as [o s2]. cbn [fst snd] in *. split; [done|]. split; [done|].
    assert (He : forall {A} (f : event -> option A), (forall x y, f (EvResult x y) = None) -> f EvHandlerDone = None -> forall l1 l2 dt,
      omap f (rev (signal dt o ++ s_log (set_s_log (new ++ calls ++ signal l1 (Ok tt) ++ EvResult None (Some (limit_err E ro)) :: s_log s1) s2))) =
      omap f (rev (signal l2 o ++ s_log s2))).
    { intros A f F1 F2 l1 l2 dt. cbn [s_log set_s_log]. rewrite Hd, !rev_app_distr, !omap_app. cbn [rev]. rewrite !omap_app.
      assert (Hsg : forall b o', omap f (rev (signal b o')) = []) by (intros [] []; cbn; by rewrite ?F2).
      assert (Hcs : omap f (rev calls) = []) by (unfold calls; destruct (ro_retid ro'), (ro_detach ro'); cbn; by rewrite ?F1, ?F2).
      rewrite !Hsg, Hcs. cbn. rewrite F1. by rewrite !app_nil_r. }
    split; [by apply He|]. split; [by apply He|]. unfold delivered, trace. cbn [s_log set_s_log]. rewrite Hd.
    set (f := fun e => match e with EvResult d e => Some (d, e) | _ => None end).
    assert (Hsg : forall b o', omap f (rev (signal b o')) = []) by (by intros [] []).
    assert (Hcs : omap f (rev calls) = if ro_retid ro' then [(Some {[ "id" := VStr (e_id E) ]}, None)] else []) by (unfold calls; by destruct (ro_retid ro'), (ro_detach ro')).
    exists (omap f (rev (s_log s1))), (omap f (rev new)). rewrite !rev_app_distr, !omap_app, !Hsg, Hcs. cbn [rev]. rewrite !omap_app. cbn.
    rewrite !app_nil_r. split_and!; [done|done|]. by rewrite <- !app_assoc.
  Qed.
End Resume.
