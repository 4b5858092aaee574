(** What a completed flow delivers if no activity answers. No Go counterpart (proof infrastructure). *)
From Verif Require Export Silent Told.
Local Open Scope Z_scope.

(** Nobody has answered for the main flow. *)
Definition answered (lg : list event) : Prop := exists dt er, EvReturn 0 dt er ∈ lg \/ EvResult dt er ∈ lg.
Definition open_data (lg : list event) (c : option vmap) : Prop := c = None \/ answered lg.
Definition unanswered (s : st) : Prop := forall y, s_insts s !! 0%nat = Some y -> open_data (s_log s) (i_rdata y).
Lemma open_grow l l' c : (forall e, e ∈ l -> e ∈ l') -> open_data l c -> open_data l' c.
Proof. intros Hl [H|(dt & er & [H|H])]; [by left|right; exists dt, er; auto..]. Qed.

Section Keep.
  Local Set Default Proof Using "Type*".
  Context (E : env) (HL : e_listener E = false).

  Definition dk {A} (m : M A) : Prop := forall s, unanswered s -> unanswered (m s).2.
  Lemma dk_ret {A} (a : A) : dk (ret a).
  Proof. by intros s. Qed.
  Lemma dk_panic {A} msg : dk (A:=A) (panic msg).
  Proof. by intros s. Qed.
  Lemma dk_fuel {A} : dk (A:=A) out_of_fuel.
  Proof. by intros s. Qed.
  Lemma dk_blocked {A} : dk (A:=A) (fun s => (Blocked, s)).
  Proof. by intros s. Qed.
  Lemma dk_get : dk get.
  Proof. by intros s. Qed.
  Lemma dk_bind {A B} (m : M A) (k : A -> M B) : dk m -> (forall a, dk (k a)) -> dk (bind m k).
  Proof.
    intros Hm Hk s H. specialize (Hm s H). unfold bind. destruct (m s) as [[a| | |] s1]; try done. by apply Hk.
  Qed.
  Lemma dk_catch {A} (m : M A) h : dk m -> (forall e, dk (h e)) -> dk (catch m h).
  Proof.
    intros Hm Hk s H. specialize (Hm s H). unfold catch. destruct (m s) as [[a|e| |] s1]; try done. by apply Hk.
  Qed.
  Lemma dk_finally {A} (m : M A) f : dk m -> dk f -> dk (finally m f).
  Proof.
    intros Hm Hf. unfold finally. apply dk_bind.
    - apply dk_catch; [apply dk_bind; [done|intros; apply dk_ret]|intros; apply dk_ret].
    - intros r. apply dk_bind; [done|]. intros _. destruct r; [apply dk_panic|apply dk_ret].
  Qed.
  Lemma dk_iterM {A} (f : A -> M unit) l : (forall x, dk (f x)) -> dk (iterM f l).
  Proof. intros Hf. induction l; simpl; [apply dk_ret|]. by apply dk_bind. Qed.
  Lemma dk_modify f : (forall s, s_insts (f s) = s_insts s /\ forall e, e ∈ s_log s -> e ∈ s_log (f s)) -> dk (modify f).
  Proof. intros Hf s H y. unfold modify. cbn [snd]. destruct (Hf s) as [-> Hl]. intros Hy. eapply open_grow; [exact Hl|by apply H]. Qed.
  Lemma dk_upd_inst i f : (forall y, i_rdata (f y) = i_rdata y) -> dk (upd_inst i f).
  Proof.
    intros Hf s H y. unfold upd_inst, modify. cbn. destruct (decide (i = 0%nat)) as [->|].
    - rewrite lookup_alter. destruct (s_insts s !! 0%nat) as [y0|] eqn:Hy; [|done]. intros [= <-]. rewrite Hf. by apply H.
    - rewrite lookup_alter_ne by done. apply H.
  Qed.
  Lemma dk_get_ti t : dk (get_ti t).
  Proof. intros s H. unfold get_ti, bind, get. by destruct (s_tis s !! t). Qed.
  Lemma dk_get_inst t : dk (get_inst t).
  Proof. intros s H. unfold get_inst, bind, get. by destruct (s_insts s !! t). Qed.
  Lemma dk_log e : dk (log_ev e).
  Proof. apply dk_modify. intros s. split; [done|]. intros. cbn. by right. Qed.
  Lemma dk_upd_ti t f : dk (upd_ti t f).
  Proof. by apply dk_modify. Qed.

  Ltac go := repeat first
    [ apply dk_ret | apply dk_panic | apply dk_fuel | apply dk_get | apply dk_get_ti | apply dk_get_inst | apply dk_log
    | apply dk_upd_ti | (apply dk_upd_inst; reflexivity) | (apply dk_modify; intros; split; [reflexivity|cbn; auto]; fail) | (apply dk_iterM; intros ?)
    | lazymatch goal with |- dk (bind _ _) => apply dk_bind; [|intros ?] end ].

  Lemma dk_set_attrs tr i m : dk (set_attrs tr i m).
  Proof. unfold set_attrs. go. Qed.
  Lemma dk_set_value i n v : dk (set_value E i n v).
  Proof. apply dk_set_attrs. Qed.
  Lemma dk_post_flow i : dk (post_flow_event E i).
  Proof. unfold post_flow_event. rewrite HL. go. Qed.
  Lemma dk_set_task_status t z : dk (set_task_status t z).
  Proof. unfold set_task_status. go. Qed.
  Lemma dk_track t : dk (track_task t).
  Proof. unfold track_task. go. Qed.
  Lemma dk_find_task i tk : dk (find_or_create_task i tk).
  Proof. unfold find_or_create_task. go. destruct (i_tasks a !! _); [go|]. go. unfold new_tinst. destruct (t_act tk); go. Qed.
  Lemma dk_find_link i l : dk (find_or_create_link i l).
  Proof. unfold find_or_create_link. go. destruct (i_links a !! _); go. Qed.
  Lemma dk_from_links t : dk (from_links t).
  Proof. unfold from_links. go. apply dk_find_link. Qed.
  Lemma dk_to_links t : dk (to_links t).
  Proof. unfold to_links. go. apply dk_find_link. Qed.
  Lemma dk_cov c i id : dk (need_cov c i id).
  Proof. unfold need_cov. destruct (ic_cov c); go. Qed.
  Lemma dk_set_link i l z : dk (set_link_status E i l z).
  Proof. unfold set_link_status. go. destruct (bool_decide _); [|go]. destruct (e_icpt E); [apply dk_cov|go]. Qed.
  Lemma dk_release i tk : dk (release_task i tk).
  Proof. unfold release_task. go. Qed.
  Lemma dk_schedule t : dk (schedule_eval t).
  Proof. unfold schedule_eval. go. Qed.
  Lemma dk_record : dk (record_state E).
  Proof.
    unfold record_state. destruct (e_rec E); [|go]. go.
    - destruct (record_snapshot r); [|go]. destruct (e_ext E); go.
    - destruct (record_steps r); [|go]. destruct (e_ext E); go.
  Qed.
  Lemma dk_tick : dk tick.
  Proof. unfold tick. go. Qed.
  Lemma dk_ext {A} t (f : nat -> view -> A) : dk (ext t f).
  Proof. unfold ext. go. Qed.
  Lemma dk_append t e : dk (append_error_data E t e).
  Proof. unfold append_error_data. go; apply dk_set_value. Qed.
  Lemma dk_task_error t e : dk (set_task_error E t e).
  Proof. unfold set_task_error. go; apply dk_set_value. Qed.
  Lemma dk_add_cov t : dk (add_activity_coverage E t).
  Proof.
    unfold add_activity_coverage. destruct (e_icpt E); [|go]. go; [|apply dk_cov].
    destruct (ic_collect i); go; [apply dk_from_links|apply dk_to_links].
  Qed.
  Lemma dk_lock {A} (m : M A) : dk m -> dk (with_lock E m).
  Proof.
    intros Hm. unfold with_lock. destruct (e_conc E); [|done]. apply dk_bind; [go|]. intros s.
    destruct (s_lock s); [apply dk_blocked|]. apply dk_bind; [go|]. intros _. apply dk_finally; [done|go].
  Qed.
  Lemma dk_settings t : dk (apply_settings E t).
  Proof. unfold apply_settings. go. destruct (t_set _); [|go]. apply dk_bind; [apply dk_ext|]. intros []; go. Qed.
  Lemma dk_enter t : dk (enter t).
  Proof.
    unfold enter. go; [apply dk_set_task_status|apply dk_from_links|].
    destruct (scan_links _ _ _) as [[]|]; go; apply dk_set_task_status.
  Qed.
  Lemma dk_enter_list skip i es : (forall t, dk (skip t)) -> dk (enter_list E skip i es).
  Proof.
    intros Hs. induction es as [|[tk c] es IH]; simpl; [go|]. go; [apply dk_find_task|].
    destruct (e_conc E && ti_sched a0); [done|]. go; [apply dk_enter|]. destruct a1; [done| |].
    - go; [apply dk_settings|]. destruct a1; [go|]. go; [apply dk_schedule|done].
    - go; done.
  Qed.
  Lemma dk_clear : dk clear_tasks.
  Proof. unfold clear_tasks. go. Qed.
  Lemma dk_host i : dk (host_of i).
  Proof. unfold host_of. go. Qed.

  Lemma dk_set_flow_status i z : dk (set_flow_status E i z).
  Proof. unfold set_flow_status. go. apply dk_post_flow. Qed.
  Lemma dk_global ent i e : (forall j es, dk (ent j es)) -> dk (handle_global_error E ent i e).
  Proof.
    intros He. unfold handle_global_error. go. destruct (i_handling a); [apply dk_set_flow_status|]. go. destruct (d_eh (i_def a)).
    - go; [apply dk_clear|apply He].
    - go; [apply dk_set_flow_status|]. destruct (i =? 0)%nat; [go|]. go; [apply dk_record|apply dk_host|]. destruct a3; [|go]. go. apply dk_schedule.
  Qed.
  Lemma dk_complete i : dk (complete_flow E i).
  Proof.
    unfold complete_flow. apply dk_bind; [apply dk_set_flow_status|]. intros _. destruct (i =? 0)%nat; [go|]. go.
    destruct (i_host a); go. apply dk_schedule.
  Qed.
  Lemma dk_entries i es : dk (entries_of i es).
  Proof. unfold entries_of. go. destruct (resolve_entries _ _); go. Qed.
  Lemma dk_eval_link t l : dk (eval_link E t l).
  Proof.
    unfold eval_link. go. destruct (l_expr l); [|go]. apply dk_bind; [apply dk_ext|]. intros []; go.
  Qed.
  Lemma dk_done_links t i ls a : dk (done_links E t i ls a).
  Proof.
    revert a. induction ls as [|l ls IH]; intros a; simpl; [go|]. apply dk_bind; [|intros []; [go|apply IH]].
    unfold done_link. go; [apply dk_set_link|]. destruct (l_type l); go; try apply dk_set_link; try apply dk_eval_link.
    destruct a1 as [|[]]; go. apply dk_set_link.
  Qed.
  Lemma dk_beh_done t : dk (beh_done E t).
  Proof.
    unfold beh_done. go; [apply dk_to_links|apply dk_set_task_status|]. destruct a; [go|]. apply dk_bind; [apply dk_done_links|].
    intros []; [go|]. go; [|apply dk_entries]. destruct (da_oth d); [|go]. destruct (_ && _); go. apply dk_set_link.
  Qed.
  Lemma dk_beh_skip t : dk (beh_skip E t).
  Proof.
    unfold beh_skip. cbv zeta. go; [apply dk_to_links|apply dk_set_task_status|]. destruct a; [go|]. go; [apply dk_set_link|apply dk_entries].
  Qed.
  Lemma dk_beh_error t : dk (beh_error E t).
  Proof.
    unfold beh_error. go; [apply dk_to_links|]. destruct (existsb _ _); [|go]. go; [apply dk_set_link|apply dk_entries].
  Qed.
  Lemma dk_flow_done i : dk (flow_task_done i).
  Proof. unfold flow_task_done. go. Qed.
  Lemma dk_done ent t : (forall j es, dk (ent j es)) -> dk (handle_task_done E ent t).
  Proof.
    intros He. unfold handle_task_done. apply dk_bind; [go|]. intros x. cbv zeta. apply dk_bind.
    { destruct (bool_decide _); go; [apply dk_beh_skip|apply dk_beh_done|apply dk_add_cov]. }
    intros [e|[nt es]].
    - go; [apply dk_append|by apply dk_global].
    - go; [destruct nt; [apply dk_flow_done|go]| |apply dk_release]. destruct (_ || _); [apply dk_complete|].
      go. apply He.
  Qed.
  Lemma dk_enter_tasks n i es : dk (enter_tasks E n i es).
  Proof.
    revert i es. induction n as [|n IH]; intros i es; cbn [enter_tasks]; apply dk_lock, dk_enter_list; intros t; [go|].
    by apply dk_done.
  Qed.
  Lemma dk_enter_top i es : dk (enter_top E i es).
  Proof. unfold enter_top. go. apply dk_enter_tasks. Qed.
  Lemma dk_task_done t : dk (task_done E t).
  Proof. apply dk_done. apply dk_enter_top. Qed.
  Lemma dk_global_error i e : dk (global_error E i e).
  Proof. apply dk_global. apply dk_enter_top. Qed.
  Lemma dk_task_error_handling t e : dk (handle_task_error E t e).
  Proof.
    unfold handle_task_error. go; [apply dk_set_task_status|apply dk_add_cov|apply dk_beh_error|].
    cbv zeta. destruct (a1.1).
    - go; [apply dk_task_error| |apply dk_release]. destruct (a1.2); [go|]. go. apply dk_enter_top.
    - go. destruct (i_handling a3).
      + go; [apply dk_set_flow_status|]. destruct (_ =? 0)%nat; [apply dk_append|]. go; [apply dk_record|]. destruct (i_host a3); go. apply dk_schedule.
      + go; [apply dk_append|]. apply dk_global. apply dk_enter_top.
  Qed.

  (** Evaluation: the data kept change only by an answer. *)
  Definition ans (s s' : st) : Prop :=
    (forall e, e ∈ s_log s -> e ∈ s_log s') /\
    forall y, s_insts s !! 0%nat = Some y -> exists y', s_insts s' !! 0%nat = Some y' /\ (i_rdata y' = i_rdata y \/ answered (s_log s')).
  Lemma ans_same s s' l : s_log s' = l ++ s_log s -> s_insts s' = s_insts s -> ans s s'.
  Proof. intros Hl Hs. split; [intros e He; rewrite Hl; apply elem_of_app; by right|]. intros y Hy. exists y. rewrite Hs. auto. Qed.
  Lemma ans_inst i f s l : (forall y, i_rdata (f y) = i_rdata y \/ exists dt er, EvReturn i dt er ∈ l \/ EvResult dt er ∈ l) ->
    ans s (set_s_log (l ++ s_log s) (p_inst i f s)).
  Proof.
    intros Hf. split; [intros e He; cbn; apply elem_of_app; by right|]. intros y Hy. destruct (decide (i = 0%nat)) as [->|Hi].
    - exists (f y). cbn. rewrite lookup_alter, Hy. split; [done|]. destruct (Hf y) as [?|(dt & er & H)]; [by left|right; exists dt, er].
      destruct H; [left|right]; apply elem_of_app; by left.
    - exists y. cbn. rewrite lookup_alter_ne by done. auto.
  Qed.
  Lemma ans_leaves t i tk : leaves E t i tk ans.
  Proof.
    constructor; constructor.
    - intros s. by apply (ans_same s s []).
    - intros a b c (H1 & I1) (H2 & I2). split; [auto|]. intros y Hy.
      destruct (I1 y Hy) as (y1 & Hy1 & A1). destruct (I2 y1 Hy1) as (y2 & Hy2 & A2). exists y2. split; [done|].
      destruct A2 as [->|?]; [|by right]. destruct A1 as [?|(dt & er & [?|?])]; [by left|right; exists dt, er; auto..].
    - intros s _. by apply (ans_same _ _ []).
    - intros e s _ He. by apply (ans_same _ _ [e]).
    - intros m s _ _ _. apply (ans_inst i (fun x => set_i_attrs (m ∪ i_attrs x) x) s [EvSet i m (e_track E)]). by left.
    - intros f s _ _ _. by apply (ans_same _ _ []).
    - intros v s _ _. apply (ans_inst i (fun x => set_i_attrs ({[ "_A." +:+ t_id tk := v ]} ∪ i_attrs x) x) s [EvSet i {[ "_A." +:+ t_id tk := v ]} (e_track E)]). by left.
    - intros d e s _. unfold reply, bind, get_inst, bind, get. destruct (s_insts s !! i) as [y|]; [|by apply (ans_same _ _ [])].
      unfold ret at 1. destruct (i_handler y); [|by apply (ans_same _ _ [])].
      apply (ans_inst i (set_i_rdata d) s [EvResult d e]). intros ?. right. exists d, e. right. left.
    - intros d e s _. apply (ans_inst i (fun x => set_i_force true (set_i_rdata d (set_i_rerr e x))) s [EvReturn i d e]).
      intros y. right. exists d, e. left. left.
    - intros u ins s [H Ho] _. destruct (quiet_sub_own E t i tk u ins s Ho H) as (Q & _ & I).
      split; [|split; [by eapply ti_is_quiet|by destruct (Q Ho)]].
      destruct (lg_start_subflow E start_ev (fun _ H => or_introl H) start_set t u ins s) as (l & Hl & F).
      split; [intros e He; rewrite Hl; apply elem_of_app; by right|]. intros y Hy. exists y. split; [|by left]. rewrite I; [done|lia].
    - intros n v s _ _ _. apply (ans_inst i (fun x => set_i_attrs ({[ n := v ]} ∪ i_attrs x) x) s [EvSet i {[ n := v ]} (e_track E)]). by left.
    - intros ins it s x _ _ _ _. by apply (ans_same _ _ [EvAct i (t_id tk) ins it]).
    - intros e s _. by apply (ans_same _ _ [EvActEnd i (t_id tk) e]).
    - intros e s _ He. by apply (ans_same _ _ [e]).
    - intros k w s _. by apply (ans_same _ _ []).
    - intros s x z _ _ _ _. by apply (ans_same _ _ [EvTaskUpd (ti_inst x) (t_id (ti_task x)) z]).
  Qed.
  Lemma open_eval s s' : ans s s' -> unanswered s -> is_Some (s_insts s !! 0%nat) -> unanswered s'.
  Proof.
    intros [R1 R2] H [y Hy] y' Hy'. destruct (R2 y Hy) as (y2 & Hy2 & [Hr|Hr]); [|by right]. assert (y2 = y') as -> by congruence.
    rewrite Hr. eapply open_grow; [exact R1|]. by apply H.
  Qed.
  Lemma open_exec t s x : StepsProof.fresh s -> s_tis s !! t = Some x -> unanswered s -> is_Some (s_insts s !! 0%nat) -> unanswered (exec_task E t s).2.
  Proof.
    intros F Hx H Ha.
    assert (Hti : ti_is s t (ti_inst x) (ti_task x)) by (by exists x).
    assert (Hrec : forall m, dk (exec_recover E t m)).
    { intros m. unfold exec_recover. go. destruct (i_handling a0); [go|]. go; [apply dk_append|apply dk_global_error]. }
    assert (Hbody : unanswered (exec_body E t s).2).
    { unfold exec_body, bind at 1, get_ti, bind at 1, get. rewrite Hx. unfold ret at 1. case_bool_decide; [done|].
      set (m := if bool_decide (ti_status x = TWaiting) then beh_post E (t_type (ti_task x)) t else beh_eval E (t_type (ti_task x)) t).
      assert (unanswered (m s).2) as Hm.
      { eapply open_eval; [|done|done]. unfold m.
        case_bool_decide; [apply (rq_beh_post E t _ _ _ (ans_leaves t (ti_inst x) (ti_task x)))|apply (rq_beh_eval E t _ _ _ (ans_leaves t (ti_inst x) (ti_task x)))]; eauto using fresh_okq. }
      unfold bind. destruct (m s) as [[r| | |] s1]; try done. simpl in Hm. destruct r as [e|[]].
      - by apply dk_task_error_handling.
      - by apply dk_set_task_status.
      - by apply dk_task_done.
      - revert s1 Hm. match goal with |- forall s1, unanswered s1 -> unanswered (match track_task t s1 with _ => _ end).2 => change (dk (track_task t ;; schedule_eval t)) end.
        go; [apply dk_track|apply dk_schedule].
      - by apply dk_set_task_status.
      - by apply dk_task_done. }
    unfold exec_task, catch. destruct (exec_body E t s) as [[|m| |] s1]; try done. by apply Hrec.
  Qed.
  Lemma open_step d uri c s : reach E d uri c s -> unanswered s -> unanswered (do_step E s).2.
  Proof.
    intros R H. destruct (do_step_cases E s) as [->|(w & t & q & x & y & Hq & Hx & Hy & Ha & ->)]; [done|].
    eapply open_exec; [eapply reach_fresh, popped_reach; eauto|exact Hx| |by exists y].
    intros y1 Hy1. eapply open_grow; [|by apply H]. intros e1 He1. by right.
  Qed.
  Lemma dk_start_instance i m : dk (start_instance E i m).
  Proof.
    unfold start_instance. go.
    - unfold parent_info. go; [apply dk_host|]. destruct a0; go.
    - apply dk_set_attrs.
    - destruct (d_md (i_def a)); [apply dk_set_attrs|go].
    - apply dk_set_attrs.
    - apply dk_set_flow_status.
    - apply dk_enter_top.
  Qed.
  Lemma open_init d uri : unanswered (init_st d uri).
  Proof. intros y. cbn. rewrite lookup_singleton. intros [= <-]. by left. Qed.
  Lemma open_running d uri s : e_ext E = false -> running E d uri s -> unanswered s.
  Proof.
    intros HX. induction 1 as [ins|ro ins H|s H IH|s H IH].
    - apply dk_start_instance, open_init.
    - assert (dk (run_begin E ro ins)) as Hb; [|apply Hb, open_init]. unfold run_begin, run_prepare, run_head. rewrite HX. go.
      + destruct (String.eqb _ _); [go|apply dk_set_value].
      + apply dk_start_instance.
      + destruct (ro_detach ro); go.
      + destruct (ro_retid ro); go.
    - apply running_reach in H as [c H]. by eapply open_step.
    - by apply dk_record.
  Qed.
End Keep.

Lemma outputs_delivered E ro d uri ins mi outs : e_listener E = false -> e_ext E = false -> d_md d = Some (mk_md mi (Some outs)) ->
  let over := (run_flow E ro d uri ins).2 in
  let before := laps E (s_step over) (run_begin E ro ins (init_st d uri)).2 in
  (run_flow E ro d uri ins).1 = Ok tt -> main_status over = Some FCompleted ->
  delivered before = [] -> (forall dt er, EvReturn 0 dt er ∉ trace before) ->
  exists r er, delivered over = [(Some r, er)] /\
    (forall k, outs !! k = Some VNil -> r !! k = last (assigned 0 k (trace before))) /\
    (forall k v, outs !! k = Some v -> v <> VNil -> r !! k = Some v) /\ (forall k, outs !! k = None -> r !! k = None).
Proof.
  intros HL HX Hmd over before Hok Hc Hdel Hret. destruct (results E ro d uri ins Hok) as (n & y & r & _ & Hst & _ & Hy & _ & Hd & Hl & Hs).
  fold over in Hst, Hd, Hs. subst n. fold before in Hy, Hd. rewrite Hs in Hc. injection Hc as Hc.
  assert ((run_begin E ro ins (init_st d uri)).1 = Ok tt) as Hb.
  { destruct (out_ok (run_begin E ro ins (init_st d uri)).1) as [H|H]; [done|]. destruct (run_flow_early _ _ _ _ _ H) as [_ Ho]. congruence. }
  assert (running E d uri before) as R by (apply laps_running; by constructor).
  assert (i_rdata y = None) as Hr.
  { destruct (open_running E HL d uri before HX R y Hy) as [H|(dt & er & [H|H])]; [done| |].
    - destruct (Hret dt er). by apply in_rev_elem.
    - exfalso. assert ((dt, er) ∈ delivered before) as Hin; [|rewrite Hdel in Hin; by apply elem_of_nil in Hin].
      unfold delivered. apply elem_of_list_omap. exists (EvResult dt er). split; [by apply in_rev_elem|done]. }
  destruct (running_reach _ _ _ _ R) as [c Rc]. destruct (inv_main _ _ _ _ _ Rc) as (y' & Hy' & Hd' & _). assert (y' = y) as -> by congruence.
  unfold last_results in Hl. rewrite Hc in Hl. rewrite (bool_decide_true (FCompleted = FCompleted)), andb_false_r in Hl by done.
  unfold result_data in Hl. rewrite Hr, Hd', Hmd in Hl. rewrite Hdel, Hl in Hd. eexists _, _. split; [exact Hd|].
  destruct (told_running E d uri before R) as (_ & Ha & _).
  split_and!.
  - intros k Hk. rewrite map_lookup_imap, Hk. cbn. rewrite <- Ha. unfold attr_of. by rewrite Hy.
  - intros k v Hk Hv. rewrite map_lookup_imap, Hk. cbn. by destruct v.
  - intros k Hk. by rewrite map_lookup_imap, Hk.
Qed.
