(** Every state of a run is reached by atomic steps (proofs; no Go counterpart). *)
From Verif Require Export Spec StepsEngine.
Local Open Scope Z_scope.

Lemma fresh_init d uri : fresh (init_st d uri).
Proof.
  split_and!.
  - intros t _. apply lookup_empty.
  - intros i Hi. cbn [s_insts s_sfctr init_st] in *. apply lookup_singleton_None. lia.
  - intros i id t (y & Hy & Ht). cbn [s_insts init_st] in Hy.
    apply lookup_singleton_Some in Hy as [_ <-]. cbn [i_tasks] in Ht. by rewrite lookup_empty in Ht.
  - intros t x Hx. cbn [s_tis init_st] in Hx. by rewrite lookup_empty in Hx.
  - intros i y l z Hy Hl. cbn [s_insts init_st] in Hy.
    apply lookup_singleton_Some in Hy as [_ <-]. cbn [i_links] in Hl. by rewrite lookup_empty in Hl.
  - intros t x Hx. cbn [s_tis init_st] in Hx. by rewrite lookup_empty in Hx.
Qed.

Lemma fresh_same s s' :
  s_tis s' = s_tis s -> s_insts s' = s_insts s -> s_log s' = s_log s -> s_nti s' = s_nti s ->
  s_sfctr s' = s_sfctr s -> fresh s -> fresh s'.
Proof.
  intros A B C D F. unfold fresh, registered, rdyT, rdy, decided, ti_is, logged.
  by rewrite A, B, C, D, F.
Qed.

Lemma grows_set tr i m s : grows s (p_set tr i m s).
Proof.
  eapply grows_trans; [|apply grows_log]. by apply grows_inst.
Qed.
Lemma fresh_set tr i m s : fresh s -> fresh (p_set tr i m s).
Proof. intros F. apply fresh_log. apply fresh_inst; [done|done|eauto|done]. Qed.

Section Reach.
  Context (E : env) (d : defn) (uri : string).
  Notation reach := (reach E d uri).

  Lemma reach_fresh c s : reach c s -> fresh s.
  Proof.
    induction 1 as [|c s s' H IH St|c s H IH|c s w t q x y H IH Hq Hx Hy Ha|c s m y H IH Hy|c s e H IH He].
    - apply fresh_init.
    - by eapply astep_fresh.
    - by eapply fresh_same; [..|exact IH].
    - apply fresh_log. by eapply fresh_same; [..|exact IH].
    - by apply fresh_set.
    - by apply fresh_log.
  Qed.

  Lemma reach_asteps c s s' : reach c s -> asteps E c s s' -> reach c s'.
  Proof. intros H St. induction St; eauto using R_astep. Qed.
  Lemma reach_wp {A} c (m : M A) s Q : reach c s -> wp E c m s Q -> reach c (m s).2.
  Proof. intros H W. eapply reach_asteps; [done|]. apply W. by eapply reach_fresh. Qed.

  (** The computation keeps to reachable states. *)
  Definition rp {A} (m : M A) : Prop := forall c s, reach c s -> exists c', reach c' (m s).2.

  Lemma rp_ret {A} (a : A) : rp (ret a).
  Proof. intros c s H. eauto. Qed.
  Lemma rp_panic {A} msg : rp (A:=A) (panic msg).
  Proof. intros c s H. eauto. Qed.
  Lemma rp_bind {A B} (m : M A) (k : A -> M B) : rp m -> (forall a, rp (k a)) -> rp (bind m k).
  Proof.
    intros Hm Hk c s H. destruct (Hm c s H) as [c' H']. unfold bind.
    destruct (m s) as [[]?]; simpl in *; eauto. by eapply Hk.
  Qed.
  Lemma rp_wp {A} (m : M A) : (forall c s, wp E c m s T) -> rp m.
  Proof. intros W c s H. exists c. by eapply reach_wp. Qed.
  Lemma rp_log e : note_ev e \/ caller_ev e -> rp (log_ev e).
  Proof.
    intros [He|He]; [apply rp_wp; intros; by apply wp_log|].
    intros c s H. exists c. by apply (R_note _ _ _ c s e).
  Qed.
  Lemma rp_get_inst i : rp (get_inst i).
  Proof. apply rp_wp. intros. by apply wp_get_inst. Qed.
  Lemma rp_set_values m : rp (set_values E 0 m).
  Proof.
    intros c s H. unfold set_values, set_attrs, bind, get_inst, get. simpl.
    unfold bind. destruct (s_insts s !! 0%nat) as [y|] eqn:Hy; simpl; [|eauto].
    exists c. by eapply (R_set E d uri c s m y).
  Qed.

  Lemma rp_do_step : rp (do_step E).
  Proof.
    intros c s H. unfold do_step, modify, bind at 1. apply R_step in H.
    set (s1 := set_s_step (S (s_step s)) s) in *.
    unfold bind at 1, get_inst, get, bind at 1.
    destruct (s_insts s1 !! 0%nat) as [y|] eqn:Hy; [|by exists c].
    unfold ret at 1. case_bool_decide as Hst; [|by exists c].
    unfold bind at 1. destruct (s_queue s1) as [|[w t] q] eqn:Hq; [by exists c|].
    unfold bind at 1, get_ti, get, bind at 1.
    destruct (s_tis s1 !! t) as [x|] eqn:Hx; [|by exists c].
    unfold ret at 1, bind at 1, log_ev, modify, bind at 1.
    eapply R_pop in H; eauto. exists (Some t).
    unfold bind. set (s2 := set_s_log _ _) in *.
    assert (reach (Some t) (exec_task E t s2).2) as H2.
    { eapply reach_wp; [exact H|by apply wp_exec_task]. }
    destruct (exec_task E t s2) as [[]?]; done.
  Qed.

  Lemma rp_record : rp (record_state E).
  Proof.
    unfold record_state. destruct (e_rec E) as [m|]; [|apply rp_wp; intros; apply wp_panic].
    apply rp_bind.
    - destruct (record_snapshot m); [|apply rp_wp; intros; by apply wp_ret].
      destruct (e_ext E); apply rp_wp; intros; [|apply wp_panic]. apply wp_bget, wp_step; [|done]. intros _. apply S_snap.
    - intros _. destruct (record_steps m); [|apply rp_wp; intros; by apply wp_ret].
      destruct (e_ext E); [apply rp_log; by right|apply rp_wp; intros; apply wp_panic].
  Qed.
  Lemma rp_flow_state : rp flow_state.
  Proof.
    apply rp_wp. intros. apply wp_seq; [apply wp_get_return_data|]. intros. by apply wp_ret.
  Qed.
  Lemma rp_return_data : rp (get_return_data 0).
  Proof. apply rp_wp. intros. apply wp_get_return_data. Qed.

  Lemma rp_run_loop n k : rp (run_loop E n k).
  Proof.
    revert k. induction n as [|n IH]; intros k; simpl; [apply rp_ret|].
    apply rp_bind; [apply rp_get_inst|]. intros x. destruct (_ <? _); [|apply rp_ret].
    apply rp_bind; [apply rp_do_step|]. intros more.
    apply rp_bind; [destruct (e_ext E); [apply rp_record|apply rp_ret]|]. intros _.
    destruct more; [apply IH|apply rp_ret].
  Qed.

  Lemma rp_flow_asserts id ty mt k l f : rp (flow_asserts E id ty mt k l f).
  Proof.
    revert k f. induction l as [|a l IH]; intros k f; simpl; [apply rp_ret|].
    destruct mt; simpl.
    - destruct (as_empty a).
      + apply rp_bind; [apply rp_log; by (left + right)|]. intros. apply IH.
      + apply rp_bind.
        { apply rp_bind; [apply rp_wp; intros; apply wp_tick|]. intros.
          apply rp_bind; [apply rp_get_inst|]. intros. apply rp_ret. }
        intros [b|e|m]; [| |apply rp_panic]; (apply rp_bind; [apply rp_log; by (left + right)|]; intros; apply IH).
    - apply rp_bind; [apply rp_log; by (left + right)|]. intros. apply IH.
  Qed.
  Lemma rp_apply_flow_asserts ty : rp (apply_flow_asserts E ty).
  Proof.
    apply rp_bind; [apply rp_get_inst|]. intros x. cbv zeta. destruct (task_icpt E (d_name (i_def x) +:+ "-_flowOutput")); [|apply rp_ret].
    apply rp_bind; [apply rp_log; by (left + right)|]. intros. apply rp_flow_asserts.
  Qed.
  Lemma rp_run_finish ro k : rp (run_finish E ro k).
  Proof.
    apply rp_bind; [apply rp_get_inst|]. intros x. destruct (_ && _); [apply rp_log; by (left + right)|].
    apply rp_bind.
    - destruct (i_status x =? FCompleted).
      + apply rp_bind; [apply rp_return_data|]. intros r.
        apply rp_bind; [destruct r.1; [apply rp_set_values|apply rp_ret]|]. intros.
        apply rp_bind; [apply rp_apply_flow_asserts|]. intros. apply rp_log; by (left + right).
      + destruct (i_status x =? FFailed); [|apply rp_ret].
        apply rp_bind; [apply rp_apply_flow_asserts|]. intros b.
        apply rp_bind; [destruct b; [apply rp_log; by (left + right)|apply rp_ret]|]. intros.
        apply rp_bind; [apply rp_get_inst|]. intros. apply rp_log; by (left + right).
    - intros. destruct (e_ext E); [|apply rp_ret].
      apply rp_bind; [apply rp_flow_state|]. intros. apply rp_log; by (left + right).
  Qed.
  Lemma rp_head ro : rp (run_head E ro).
  Proof.
    unfold run_head. apply rp_bind; [destruct (ro_detach ro); [apply rp_log; by (left + right)|apply rp_ret]|].
    intros. destruct (ro_retid ro); [apply rp_log; by (left + right)|apply rp_ret].
  Qed.
  Lemma rp_finally {A} (m : M A) f : rp m -> rp f -> rp (finally m f).
  Proof.
    intros Hm Hf. unfold finally. apply rp_bind.
    - intros c s H. destruct (Hm c s H) as [c' H']. unfold catch, bind. destruct (m s) as [[]s1]; simpl in *; eauto.
    - intros r. apply rp_bind; [done|]. intros _. destruct r; [apply rp_panic|apply rp_ret].
  Qed.
  Lemma rp_run_body ro : rp (run_body E ro).
  Proof.
    apply rp_bind; [apply rp_head|]. intros. apply rp_finally.
    - apply rp_bind; [apply rp_run_loop|]. intros. apply rp_run_finish.
    - destruct (ro_detach ro); [apply rp_ret|apply rp_log; by (left + right)].
  Qed.

  (** Before the start. *)
  Definition rp0 {A} (m : M A) : Prop := forall s,
    reach None s -> nstarted s None 0 -> reach None (m s).2 /\ nstarted (m s).2 None 0.
  Lemma rp0_bind {A B} (m : M A) (k : A -> M B) : rp0 m -> (forall a, rp (k a)) ->
    forall s, reach None s -> nstarted s None 0 -> exists c', reach c' (bind m k s).2.
  Proof.
    intros Hm Hk s H N. destruct (Hm s H N) as [H' N']. unfold bind.
    destruct (m s) as [[]?]; simpl in *; eauto. by eapply Hk.
  Qed.
  Lemma rp0_bind0 {A B} (m : M A) (k : A -> M B) : rp0 m -> (forall a, rp0 (k a)) -> rp0 (bind m k).
  Proof.
    intros Hm Hk s H N. destruct (Hm s H N) as [H' N']. unfold bind.
    destruct (m s) as [[]?]; simpl in *; eauto. by eapply Hk.
  Qed.
  Lemma rp0_ret {A} (a : A) : rp0 (ret a).
  Proof. by intros s. Qed.
  Lemma rp0_log e : caller_ev e -> rp0 (log_ev e).
  Proof. intros He s H N. split; [|done]. by apply (R_note _ _ _ None s e). Qed.
  Lemma rp0_flow_state : rp0 flow_state.
  Proof.
    intros s H N. split.
    - eapply (reach_wp _ _ _ T); [exact H|]. apply wp_seq; [apply wp_get_return_data|]. intros. by apply wp_ret.
    - destruct N as (y & Hy & Hs & Hh). unfold flow_state, get_return_data, get_inst, bind, get, ret.
      rewrite Hy. destruct (i_rdata y); [by exists y|].
      destruct (d_md (i_def y)) as [[? [mdo|]]|]; try (by exists y).
      eexists. unfold upd_inst, modify. cbn [fst snd s_insts set_s_insts].
      rewrite lookup_alter, Hy. done.
  Qed.
  Lemma rp0_set_values m : rp0 (set_values E 0 m).
  Proof.
    intros s H N. split.
    - eapply reach_wp; [exact H|]. by apply wp_set_attrs_new.
    - assert (fresh s) as F by by eapply reach_fresh.
      destruct (wp_set_attrs_new E None (e_track E) 0 m s N F) as [_ Q].
      unfold set_values in *. apply (Q tt).
      destruct N as (y & Hy & _). unfold set_attrs, get_inst, bind, get. by rewrite Hy.
  Qed.

  Lemma nstarted_init : nstarted (init_st d uri) None 0.
  Proof. by eexists. Qed.

  Lemma rp_start ins s : reach None s -> nstarted s None 0 -> reach None (start E ins s).2.
  Proof. intros H N. eapply reach_wp; [done|]. by apply wp_start_instance. Qed.

  Lemma started_reach ins : reach None (started E d uri ins).
  Proof. apply rp_start; [constructor|apply nstarted_init]. Qed.
  Lemma after_reach n c s : reach c s -> exists c', reach c' (after E n s).
  Proof.
    revert c s. induction n as [|n IH]; intros c s H; simpl; [eauto|].
    destruct (rp_do_step c s H) as [c' H']. by eapply IH.
  Qed.

  (** The parts of a run, regrouped. *)
  Lemma run_action_parts ro ins s :
    run_action E ro ins s =
    bind (bind (if e_ext E then flow_state ;; log_ev EvRecStart else ret tt) (fun _ =>
            if String.eqb (ro_event ro) "" then ret tt
            else set_value E 0 "event.id" (VStr (ro_event ro))))
      (fun _ => bind (start E ins) (fun _ =>
         bind (bind (upd_inst 0 (set_i_handler true)) (fun _ =>
                if e_ext E then if (ro_init ro <=? 0)%Z then record_state E else log_ev EvSkipStep
                else ret tt))
           (fun _ => run_body E ro))) s.
  Proof.
    unfold run_action, run_prepare.
    generalize (if e_ext E then flow_state ;; log_ev EvRecStart else ret tt) as A.
    generalize (if String.eqb (ro_event ro) "" then ret tt
                else set_value E 0 "event.id" (VStr (ro_event ro))) as B.
    generalize (if e_ext E then if (ro_init ro <=? 0)%Z then record_state E else log_ev EvSkipStep
                else ret tt) as C. intros C B A.
    unfold bind. destruct (A s) as [[]s1]; try done. destruct (B s1) as [[]s2]; try done.
    destruct (start E ins s2) as [[]s3]; try done.
  Qed.

  Lemma rp0_before (ro : run_opts) :
    rp0 (bind (if e_ext E then flow_state ;; log_ev EvRecStart else ret tt) (fun _ =>
            if String.eqb (ro_event ro) "" then ret tt
            else set_value E 0 "event.id" (VStr (ro_event ro)))).
  Proof.
    apply rp0_bind0.
    - destruct (e_ext E); [|apply rp0_ret]. apply rp0_bind0; [apply rp0_flow_state|].
      intros. by apply rp0_log.
    - intros. destruct (String.eqb _ _); [apply rp0_ret|apply rp0_set_values].
  Qed.
  Lemma rp_after_start (ro : run_opts) :
    rp (bind (upd_inst 0 (set_i_handler true)) (fun _ =>
                if e_ext E then if (ro_init ro <=? 0)%Z then record_state E else log_ev EvSkipStep
                else ret tt)).
  Proof.
    apply rp_bind.
    - apply rp_wp. intros. by apply wp_upd_inst.
    - intros. destruct (e_ext E); [|apply rp_ret]. destruct (_ <=? _); [apply rp_record|apply rp_log; by (left + right)].
  Qed.

  Lemma run_flow_reach ro ins : exists c, reach c (run_flow E ro d uri ins).2.
  Proof.
    unfold run_flow. rewrite run_action_parts.
    destruct (rp0_before ro _ (R_init _ _ _) nstarted_init) as [H1 N1].
    unfold bind at 1. destruct (bind (if e_ext E then flow_state ;; log_ev EvRecStart else ret tt) _ _) as [[[]| | |]s1]; [|by exists None..].
    simpl in H1, N1. pose proof (rp_start ins s1 H1 N1) as H2.
    unfold bind at 1. destruct (start E ins s1) as [[[]| | |]s2]; [|by exists None..].
    refine (rp_bind _ _ _ _ _ _ H2).
    - apply rp_after_start.
    - intros. apply rp_run_body.
  Qed.

  Lemma run_prepare_parts ro ins s :
    run_prepare E ro ins s =
    bind (bind (if e_ext E then flow_state ;; log_ev EvRecStart else ret tt) (fun _ =>
            if String.eqb (ro_event ro) "" then ret tt
            else set_value E 0 "event.id" (VStr (ro_event ro))))
      (fun _ => bind (start E ins) (fun _ =>
         bind (upd_inst 0 (set_i_handler true)) (fun _ =>
                if e_ext E then if (ro_init ro <=? 0)%Z then record_state E else log_ev EvSkipStep
                else ret tt))) s.
  Proof.
    unfold run_prepare.
    generalize (if e_ext E then flow_state ;; log_ev EvRecStart else ret tt) as A.
    generalize (if String.eqb (ro_event ro) "" then ret tt
                else set_value E 0 "event.id" (VStr (ro_event ro))) as B. intros B A.
    unfold bind. destruct (A s) as [[]s1]; try done.
  Qed.
  Lemma run_prepare_reach ro ins : exists c, reach c (run_prepare E ro ins (init_st d uri)).2.
  Proof.
    rewrite run_prepare_parts.
    destruct (rp0_before ro _ (R_init _ _ _) nstarted_init) as [H1 N1].
    unfold bind at 1. destruct (bind (if e_ext E then flow_state ;; log_ev EvRecStart else ret tt) _ _) as [[[]| | |]s1]; [|by exists None..].
    simpl in H1, N1. pose proof (rp_start ins s1 H1 N1) as H2.
    unfold bind at 1. destruct (start E ins s1) as [[[]| | |]s2]; [|by exists None..].
    by apply (rp_after_start ro None).
  Qed.

  Lemma run_begin_reach ro ins : exists c, reach c (run_begin E ro ins (init_st d uri)).2.
  Proof.
    unfold run_begin, bind. pose proof (run_prepare_reach ro ins) as [c H].
    destruct (run_prepare E ro ins _) as [[]s1]; simpl in *; eauto. by eapply rp_head.
  Qed.

  Lemma running_reach s : running E d uri s -> exists c, reach c s.
  Proof.
    induction 1 as [ins|ro ins _|s _ [c H]|s _ [c H]].
    - eexists. apply started_reach.
    - apply run_begin_reach.
    - by eapply rp_do_step.
    - by eapply rp_record.
  Qed.
  Lemma after_running n s : running E d uri s -> running E d uri (after E n s).
  Proof. revert s. induction n as [|n IH]; intros s H; simpl; [done|]. apply IH. by constructor. Qed.
  Lemma started_running ins n : running E d uri (after E n (started E d uri ins)).
  Proof. apply after_running. constructor. Qed.

  Lemma visited_reach s : visited E d uri s -> exists c, reach c s.
  Proof.
    intros [H|(ro & ins & ->)].
    - by apply running_reach.
    - apply run_flow_reach.
  Qed.
End Reach.
