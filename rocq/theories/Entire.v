(** The invariant of Whole.v over all states of a run, and what it says about the end of a run. No Go
    counterpart (proof infrastructure). *)
From Verif Require Export Onward.
Local Open Scope Z_scope.

Section Entire.
  Local Set Default Proof Using "Type*".
  Context (d : defn) (sync : mode) (calls_ok : Prop).
  Context (G : graph_ok d) (AC : acyclic d) (NS : no_shortcut d) (PT : plain_tasks d).
  Context (E : env) (EH : no_takeover E d) (NC : e_conc E = false) (SO : settings_ok E) (C : cov_ok E) (L : links_ok E).
  Context (NSF : no_subflows E) (HS : sync -> sync_env false E) (HSR : sync -> returns_not sync) (HT : returns_not sync -> no_return E) (HC : calls_ok -> forall tk, tk ∈ d_tasks d -> smooth E tk).
  Notation inv := (inv d sync calls_ok).
  Notation fin := (fin d).
  Notation good := (good d sync calls_ok).
  Notation here := (here d sync calls_ok).
  Notation ready := (Whole.ready).

  (** ** Changes that do not matter *)
  Lemma here_still F e s : still None e -> here F s -> here F (p_log e s).
  Proof.
    intros He (V & y & I & Hf). exists V, y. split; [|done]. eapply (inv_same d sync calls_ok G AC NS PT E EH NC SO C L NSF HS HSR HT HC _ _ _ _ _ s _ [e]); try done. by constructor.
  Qed.
  Lemma here_inst F f s :
    (forall y, i_tasks (f y) = i_tasks y /\ i_def (f y) = i_def y /\ i_handling (f y) = i_handling y /\ i_force (f y) = i_force y /\
       i_status (f y) = i_status y /\ i_links (f y) = i_links y) -> here F s -> here F (p_inst 0 f s).
  Proof.
    intros Hy (V & y & I & Hf). destruct (Hy y) as (Y1 & Y2 & Y3 & Y4 & Y5 & Y6). exists V, (f y).
    split; [|intros H1 H2; rewrite Y5; by apply Hf].
    eapply (inv_touch _ _ _ _ _ _ _ _ s (f y) _ []); [exact I| | | |done|done|done|by left| | | |done|done|done].
    - by rewrite p_inst_at, (iv_y _ _ _ _ _ _ _ _ _ I).
    - intros. by rewrite Y1.
    - intros j u. by rewrite Y1.
    - intros. unfold link_status. by rewrite Y6.
    - intros u x Hx. by exists x.
    - apply I.
  Qed.
  Lemma here_same F s s' : s_insts s' = s_insts s -> s_tis s' = s_tis s -> s_nti s' = s_nti s -> s_queue s' = s_queue s ->
    s_log s' = s_log s -> here F s -> here F s'.
  Proof. intros H1 H2 H3 H4 H5 (V & y & I & Hf). exists V, y. split; [|done]. by eapply (inv_same d sync calls_ok G AC NS PT E EH NC SO C L NSF HS HSR HT HC _ _ _ _ _ s _ []). Qed.

  Notation cut := (cut d sync E).
  Definition on (F : gmap string Z) (s : st) : Prop := here F s \/ cut s.
  Lemma on_still F e s : still None e -> on F s -> on F (p_log e s).
  Proof.
    intros He [H|(H1 & H2 & H3 & H4)]; [left; by apply here_still|right]. split_and!; [done| |done|done].
    unfold evaluations, trace in *. cbn. rewrite omap_app. destruct e; cbn; rewrite ?app_nil_r; done.
  Qed.
  Lemma on_inst F f s :
    (forall y, i_tasks (f y) = i_tasks y /\ i_def (f y) = i_def y /\ i_handling (f y) = i_handling y /\ i_force (f y) = i_force y /\
       i_status (f y) = i_status y /\ i_links (f y) = i_links y) -> on F s -> on F (p_inst 0 f s).
  Proof.
    intros Hf [H|((y & Hy & Hs) & H2 & H3 & H4)]; [left; by apply here_inst|right]. split_and!; [|done| |done].
    2:{ intros Hr. rewrite <- (H3 Hr). unfold main_status. rewrite p_inst_at, Hy. cbn. by destruct (Hf y) as (_ & _ & _ & _ & -> & _). }
    exists (f y). rewrite p_inst_at, Hy. split; [done|]. by destruct (Hf y) as (_ & _ & _ & _ & -> & _).
  Qed.
  Lemma on_same F s s' : s_insts s' = s_insts s -> s_tis s' = s_tis s -> s_nti s' = s_nti s -> s_queue s' = s_queue s ->
    s_log s' = s_log s -> on F s -> on F s'.
  Proof.
    intros H1 H2 H3 H4 H5 [H|((y & Hy & Hs) & H7 & H8 & H9)]; [left; by eapply here_same|right].
    split_and!; [|by unfold evaluations, trace; rewrite H5|by unfold main_status; rewrite H1|done].
    exists y. by rewrite H1.
  Qed.

  (** Computations that change nothing of what [on] is about. *)
  Definition kp {A} (m : M A) : Prop := forall F s, on F s -> on F (m s).2.
  Lemma kp_ret {A} (a : A) : kp (ret a).
  Proof. by intros F s H. Qed.
  Lemma kp_panic {A} msg : kp (A:=A) (panic msg).
  Proof. by intros F s H. Qed.
  Lemma kp_bind {A B} (m : M A) (k : A -> M B) : kp m -> (forall a, kp (k a)) -> kp (bind m k).
  Proof. intros Hm Hk F s H. specialize (Hm F s H). unfold bind. destruct (m s) as [[a| | |] s1]; try done. by apply Hk. Qed.
  Lemma kp_log e : still None e -> kp (log_ev e).
  Proof. intros He F s. by apply on_still. Qed.
  Lemma kp_upd f :
    (forall y, i_tasks (f y) = i_tasks y /\ i_def (f y) = i_def y /\ i_handling (f y) = i_handling y /\ i_force (f y) = i_force y /\
       i_status (f y) = i_status y /\ i_links (f y) = i_links y) -> kp (upd_inst 0 f).
  Proof. intros Hf F s. by apply on_inst. Qed.
  Lemma kp_get_inst i : kp (get_inst i).
  Proof. intros F s H. unfold get_inst, bind, get. by destruct (s_insts s !! i). Qed.
  Lemma kp_get : kp get.
  Proof. by intros F s H. Qed.
  Lemma kp_tick : kp tick.
  Proof. intros F s H. by apply (on_same F s). Qed.
  Lemma kp_record : kp (record_state E).
  Proof.
    unfold record_state. destruct (e_rec E) as [m|]; [|apply kp_panic].
    apply kp_bind.
    - destruct (record_snapshot m); [|apply kp_ret]. destruct (e_ext E); [|apply kp_panic].
      apply kp_bind; [apply kp_get|]. intros. by apply kp_log.
    - intros _. destruct (record_steps m); [|apply kp_ret]. destruct (e_ext E); [by apply kp_log|apply kp_panic].
  Qed.
  Lemma kp_return : kp (get_return_data 0).
  Proof.
    unfold get_return_data. apply kp_bind; [apply kp_get_inst|]. intros x. destruct (i_rdata x); [apply kp_ret|].
    destruct (d_md (i_def x)) as [[? [?|]]|]; try apply kp_ret. apply kp_bind; [by apply kp_upd|]. intros. apply kp_ret.
  Qed.
  Lemma kp_set_values m : kp (set_values E 0 m).
  Proof.
    unfold set_values, set_attrs. apply kp_bind; [apply kp_get_inst|]. intros. apply kp_bind; [by apply kp_upd|]. intros. 
    try (apply kp_bind; [|intros]); by apply kp_log.
  Qed.
  Lemma kp_asserts id ty mt k l f : kp (flow_asserts E id ty mt k l f).
  Proof.
    revert k f. induction l as [|a l IH]; intros k f; simpl; [apply kp_ret|].
    destruct mt; simpl.
    - destruct (as_empty a).
      + apply kp_bind; [by apply kp_log|]. intros. apply IH.
      + apply kp_bind.
        { apply kp_bind; [apply kp_tick|]. intros. apply kp_bind; [apply kp_get_inst|]. intros. apply kp_ret. }
        intros [b|e|m]; [| |apply kp_panic]; (apply kp_bind; [by apply kp_log|]; intros; apply IH).
    - apply kp_bind; [by apply kp_log|]. intros. apply IH.
  Qed.
  Lemma kp_flow_asserts ty : kp (apply_flow_asserts E ty).
  Proof.
    apply kp_bind; [apply kp_get_inst|]. intros x. cbv zeta. destruct (task_icpt E (d_name (i_def x) +:+ "-_flowOutput")); [|apply kp_ret].
    apply kp_bind; [by apply kp_log|]. intros. apply kp_asserts.
  Qed.
  Lemma kp_finish ro k : kp (run_finish E ro k).
  Proof.
    apply kp_bind; [apply kp_get_inst|]. intros x. destruct (_ && _); [by apply kp_log|].
    apply kp_bind.
    - destruct (i_status x =? FCompleted).
      + apply kp_bind; [apply kp_return|]. intros r.
        apply kp_bind; [destruct r.1; [apply kp_set_values|apply kp_ret]|]. intros.
        apply kp_bind; [apply kp_flow_asserts|]. intros. by apply kp_log.
      + destruct (i_status x =? FFailed); [|apply kp_ret].
        apply kp_bind; [apply kp_flow_asserts|]. intros b.
        apply kp_bind; [destruct b; [by apply kp_log|apply kp_ret]|]. intros.
        apply kp_bind; [apply kp_get_inst|]. intros. by apply kp_log.
    - intros. destruct (e_ext E); [|apply kp_ret].
      apply kp_bind; [apply kp_bind; [apply kp_return|intros; apply kp_ret]|]. intros. by apply kp_log.
  Qed.
  Lemma kp_after ro : kp (after_start E ro).
  Proof.
    apply kp_bind; [by apply kp_upd|]. intros _. destruct (e_ext E); [|apply kp_ret].
    destruct (_ <=? _); [apply kp_record|]. by apply kp_log.
  Qed.
  Lemma kp_head ro : kp (run_head E ro).
  Proof.
    apply kp_bind; [destruct (ro_detach ro); [by apply kp_log|apply kp_ret]|]. intros _. destruct (ro_retid ro); [by apply kp_log|apply kp_ret].
  Qed.

  (** ** All states of a run *)
  Lemma first_inv s : first d s -> exists y, inv None ((start_entries (d_tasks d)).*1) ∅ ∅ y s /\ fin ∅ y.
  Proof.
    intros (y & Hi & _ & Hh & Ha & Hd & Ht & Hl & Hf & _ & _ & T & N & Q & _ & _ & _ & _ & _ & l0 & l & Hlog & Hq).
    assert (forall e, e ∈ s_log s -> still None e /\ evaluations s = []) as Hst.
    { intros e. rewrite Hlog. intros He. split.
      - assert (e = EvFlowStatus 0 FActive \/ e ∈ l0 ++ l) as [->|He'] by (rewrite elem_of_app, elem_of_cons in He; rewrite elem_of_app; tauto); [done|]. specialize (Hq e He'). by destruct e.
      - assert (forall r, (forall e, e ∈ r -> quiet_ev e \/ e = EvFlowStatus 0 FActive) -> omap (fun e => match e with EvAct i id _ _ => Some (i, id) | _ => None end) r = []) as Hn.
        { intros r Hr. induction r as [|a r IH]; [done|]. cbn.
          rewrite IH by (intros; apply Hr; by right). destruct (Hr a ltac:(left)) as [Ha'| ->]; [by destruct a|done]. }
        apply Hn. intros e' He'. unfold trace in He'. apply in_rev_elem in He'. rewrite rev_involutive, Hlog in He'.
        assert (e' = EvFlowStatus 0 FActive \/ e' ∈ l0 ++ l) as [->|He2] by (rewrite elem_of_app, elem_of_cons in He'; rewrite elem_of_app; tauto); [by right|left; by apply Hq]. }
    assert (evaluations s = []) as Hev. { apply (Hst (EvFlowStatus 0 FActive)). rewrite Hlog. apply elem_of_app. right. left. }
    assert ((start_entries (d_tasks d)).*1 = List.filter leading (d_tasks d)) as Hse.
    { unfold start_entries. rewrite <- list_fmap_compose. apply (list_fmap_id (List.filter leading (d_tasks d))). }
    assert (forall tk, tk ∈ (start_entries (d_tasks d)).*1 <-> tk ∈ d_tasks d /\ t_from tk = []) as Hin.
    { intros tk. rewrite Hse, !elem_of_list_In, List.filter_In. unfold leading. destruct (t_from tk); naive_solver. }
    exists y. split.
    - assert (s_insts s !! 0%nat = Some y) as Hy by (rewrite Hi; apply lookup_singleton).
      split; try done.
      + intros u _. by rewrite T.
      + intros l' Hl' _. unfold link_status. rewrite Hl, !lookup_empty. done.
      + intros id u. by rewrite Ht.
      + intros w u. rewrite Q. intros Hw. by apply elem_of_nil in Hw.
      + rewrite Q. constructor.
      + intros tk Htk _ _ Hr Hn. destruct Hn. apply Hin. split; [done|]. destruct (t_from tk) as [|l' r] eqn:Hft; [done|].
        destruct (Hr l') as [? Hr']; [rewrite Hft; left|]. done.
      + by left.
      + rewrite Ha. done.
      + rewrite Hse. pose proof (NoDup_fmap_1 t_id _ (so_ids _ _ _ _ (proj1 G))) as Hnd.
        apply NoDup_ListNoDup. by apply List.NoDup_filter, NoDup_ListNoDup.
      + intros tk [Htk _]%Hin. split_and!; [done..|]. intros u x. by rewrite Ht.
      + assert (forall tk, tk ∈ (start_entries (d_tasks d)).*1 -> live ∅ tk) as Hlv by (intros tk [_ ?]%Hin; by left).
        revert Hlv. generalize ((start_entries (d_tasks d)).*1) as ts. clear. intros ts. induction ts as [|a r IH]; intros H; [done|].
        split; [|apply IH; intros; apply H; by right]. intros b Hb. split; [left; apply H; left|]. intros _ _. apply H. left.
      + split; try done.
        * intros id z He _ Hu. destruct (Hst _ Hu) as [H _]. cbn in H. specialize (H He). done.
        * intros k z Hu. by destruct (Hst _ Hu) as [H _].
        * intros k b Hu. by destruct (Hst _ Hu) as [H _].
        * rewrite Hev. constructor.
        * intros i id. rewrite Hev. intros H. by apply elem_of_nil in H.
        * intros id _ [H|H]; by rewrite lookup_empty in H.
        * intros id o _ Hu. by destruct (Hst _ Hu) as [H _].
    - intros Hne Hall. destruct (d_tasks d) as [|tk ts]; [done|]. destruct (Hall tk ltac:(left)) as [? H]. by rewrite lookup_empty in H.
  Qed.

  Lemma first_on s : first d s -> exists F, on F (enter_top E 0 (start_entries (d_tasks d)) s).2.
  Proof.
    intros Hf. assert (evaluations s = []) as Hev.
    { destruct Hf as (y & _ & _ & _ & _ & _ & _ & _ & _ & _ & _ & _ & _ & _ & _ & _ & _ & _ & _ & l0 & l & Hlog & Hq).
      unfold evaluations. assert (forall e, e ∈ trace s -> quiet_ev e \/ e = EvFlowStatus 0 FActive) as Hr.
      { intros e He. unfold trace in He. rewrite Hlog, elem_of_list_In, <- in_rev, <- elem_of_list_In, elem_of_app, elem_of_cons in He.
        destruct He as [He|[->|He]]; [left; apply Hq, elem_of_app; by left|by right|left; apply Hq, elem_of_app; by right]. }
      clear Hlog Hq. induction (trace s) as [|a r IH]; [done|]. cbn. rewrite IH by (intros; apply Hr; by right).
      destruct (Hr a ltac:(left)) as [Ha'| ->]; [by destruct a|done]. }
    destruct (first_inv s Hf) as (y & I & Hfin).
    pose proof (enter_top_good d sync calls_ok G AC NS PT E NC SO C L (start_entries (d_tasks d)) [] ∅ ∅ y s) as Hg.
    rewrite app_nil_r in Hg. specialize (Hg I Hfin). unfold gn in Hg.
    destruct Hg as [[Hov Hns]|(_ & F' & V' & y' & _ & I' & Hf')].
    - exists ∅. right. split_and!; [done| |done|by intros ?%HSR].
      rewrite (evaluations_logs s); [rewrite Hev; constructor|]. apply (op_enter_top _ _ (ops_logs around_ev (fun _ H => H))).
    - exists F'. left. by exists V', y'.
  Qed.
  Lemma kp_ok {A B} (m : M A) (k : A -> M B) s : (exists F, on F (m s).2) -> (forall a, kp (k a)) -> exists F, on F (bind m k s).2.
  Proof. intros [F H] Hk. exists F. unfold bind. destruct (m s) as [[a| | |] s1]; try done. by apply Hk. Qed.
  Lemma begin_on uri ro ins : exists F, on F (run_begin E ro ins (init_st d uri)).2.
  Proof.
    destruct (begin_first E ro d uri ins) as (s1 & -> & Hf). apply kp_ok; [apply kp_ok; [by apply first_on|intros; apply kp_ret]|].
    intros _. apply kp_bind; [apply kp_after|]. intros. apply kp_head.
  Qed.
  Lemma step_on uri F s : running E d uri s -> on F s -> exists F', F ⊆ F' /\ on F' (do_step E s).2.
  Proof.
    intros R [H|H].
    - destruct (step_here d sync calls_ok G AC NS PT E EH NC SO C L NSF HS HSR HT HC uri F s R H) as (H1 & H2 & H3).
      destruct (decide (main_status s = Some FActive)) as [Ha|Ha].
      + destruct (s_queue s) eqn:Hq.
        * exists F. split; [done|]. left. by apply H1.
        * destruct H2 as [H2|(F' & Hs & H2 & _)]; [done|done|exists F; split; [done|by right]|]. exists F'. split; [done|by left].
      + exists F. split; [done|]. left. by apply H3.
    - exists F. split; [done|]. right. assert (H' := H). destruct H' as ((y & Hy & Hs) & _).
      destruct (do_step_cases E s) as [->|(w & t & q & x & y' & _ & _ & Hy' & Ha & _)]; [|congruence]. exact H.
  Qed.
  Lemma running_on uri s : running E d uri s -> exists F, on F s.
  Proof.
    induction 1 as [ins|ro ins _|s R [F IH]|s R [F IH]].
    - unfold started. destruct (started_first E d uri ins) as (s1 & -> & Hf). apply kp_ok; [by apply first_on|intros; apply kp_ret].
    - apply begin_on.
    - destruct (step_on uri F s R IH) as (F' & _ & H). eauto.
    - exists F. by apply kp_record.
  Qed.
  Lemma visited_on uri s : visited E d uri s -> exists F, on F s.
  Proof.
    intros [R|(ro & ins & ->)]; [by eapply running_on|].
    destruct (out_ok (run_begin E ro ins (init_st d uri)).1) as [H|H].
    2:{ destruct (run_flow_early E ro d uri ins H) as [-> _]. apply begin_on. }
    rewrite (run_flow_body E ro d uri ins H). set (s0 := (run_begin E ro ins (init_st d uri)).2).
    set (loop := bind (run_loop E (Z.to_nat (ro_max ro - first_count ro)) (first_count ro)) (run_finish E ro)).
    assert (exists F, on F (loop s0).2) as [F HF].
    { apply kp_ok; [|intros; apply kp_finish].
      destruct (run_loop_shape E (Z.to_nat (ro_max ro - first_count ro)) (first_count ro) s0) as (m & _ & _ & -> & _).
      eapply running_on, laps_running. by constructor. }
    pose proof (finally_shape loop _ s0 (done_total ro)) as Fi. exists F.
    assert (on F ((if ro_detach ro then ret tt else log_ev EvHandlerDone) (loop s0).2).2) as Hd.
    { destruct (ro_detach ro); [done|]. by apply on_still. }
    destruct (loop s0).1; by rewrite Fi.
  Qed.

  (** ** The end of a run *)
  Lemma least_open (F : gmap string Z) : (exists tk, tk ∈ d_tasks d /\ F !! t_id tk = None) ->
    exists tk, tk ∈ d_tasks d /\ F !! t_id tk = None /\ ready F tk.
  Proof.
    intros (tk & Htk & HF). destruct (above_rank d G AC) as [r Hr].
    remember (r (t_id tk)) as n eqn:Hn. revert tk Htk HF Hn. induction (lt_wf n) as [n _ IH]. intros tk Htk HF ->.
    destruct (decide (Forall (fun l => is_Some (F !! l_from l)) (t_from tk))) as [Hall|Hno].
    - exists tk. split_and!; [done..|]. intros l Hl. rewrite Forall_forall in Hall. by apply Hall.
    - apply not_Forall_Exists in Hno; [|apply _]. apply Exists_exists in Hno as (l & Hl & Hn). apply (g_from d G) in Hl as [Hl Hto]; [|done].
      destruct (g_source d G l Hl) as (tk' & Htk' & Hid). apply (IH (r (t_id tk'))) with (tk := tk'); [|done| |done].
      + rewrite Hid, <- Hto. by apply Hr.
      + rewrite Hid. cbn in Hn. destruct (F !! l_from l) eqn:?; [|done]. destruct Hn; eauto.
  Qed.
  Lemma open_dec (F : gmap string Z) : (exists tk, tk ∈ d_tasks d /\ F !! t_id tk = None) \/ (forall tk, tk ∈ d_tasks d -> is_Some (F !! t_id tk)).
  Proof.
    destruct (decide (Forall (fun tk => is_Some (F !! t_id tk)) (d_tasks d))) as [Hall|Hno].
    - right. by rewrite Forall_forall in Hall.
    - left. apply not_Forall_Exists in Hno; [|apply _]. apply Exists_exists in Hno as (tk & Htk & Hn). exists tk. split; [done|].
      cbn in Hn. destruct (F !! t_id tk) eqn:?; [|done]. destruct Hn; eauto.
  Qed.
  Lemma completed_closed F s : here F s -> main_status s = Some FCompleted -> forall tk, tk ∈ d_tasks d -> is_Some (F !! t_id tk).
  Proof.
    intros (V & y & I & Hf) Hm. pose proof (iv_y _ _ _ _ _ _ _ _ _ I) as Hy. unfold main_status in Hm. rewrite Hy in Hm. injection Hm as Hm.
    destruct (open_dec F) as [Ho|?]; [|done]. destruct (least_open F Ho) as (tk & Htk & HF & Hr). exfalso.
    apply (iv_comp _ _ _ _ _ _ _ _ _ I Hm tk Htk HF).
    destruct (iv_ready _ _ _ _ _ _ _ _ _ I tk Htk HF ltac:(done) Hr ltac:(by intros ?%elem_of_nil)) as (u & x & Hu & Hx & Hq).
    destruct (iv_reg _ _ _ _ _ _ _ _ _ I _ _ Hu) as (tk' & x' & Htk' & Hid & Hx' & _ & _ & _ & Hst).
    assert (x' = x) as -> by congruence. assert (tk' = tk) as -> by by apply (g_task_inj d G).
    destruct (Hst HF ltac:(done)) as [He|(_ & _ & Hl)]; [|done]. exfalso.
    destruct Hq as [Hq|Hq]; [|by rewrite He in Hq]. apply elem_of_list_fmap in Hq as ([w u'] & Hu' & Hq). cbn in Hu'. subst u'.
    destruct (iv_queue _ _ _ _ _ _ _ _ _ I _ _ Hq) as (? & x2 & _ & _ & _ & Hx2 & Hs2). assert (x2 = x) as -> by congruence. by rewrite He in Hs2.
  Qed.
  Lemma idle_closed F s : sync -> here F s -> s_queue s = [] -> forall tk, tk ∈ d_tasks d -> is_Some (F !! t_id tk).
  Proof.
    intros Sy (V & y & I & Hf) Hq. destruct (open_dec F) as [Ho|?]; [|done]. destruct (least_open F Ho) as (tk & Htk & HF & Hr). exfalso.
    destruct (iv_ready _ _ _ _ _ _ _ _ _ I tk Htk HF ltac:(done) Hr ltac:(by intros ?%elem_of_nil)) as (u & x & Hu & Hx & Hc).
    rewrite Hq in Hc. destruct Hc as [Hc|Hc]; [by apply elem_of_nil in Hc|].
    destruct (iv_reg _ _ _ _ _ _ _ _ _ I _ _ Hu) as (tk' & x' & Htk' & Hid & Hx' & _ & _ & _ & Hst).
    assert (x' = x) as -> by congruence. destruct (Hst HF ltac:(done)) as [He|([He|[_ Hn]] & _)]; [| |done]; by rewrite He in Hc.
  Qed.
  (** With synchronous activities that do not fail without an error link the flow completes within as
      many steps as tasks are open. *)
  Lemma completes uri F s : sync -> d_tasks d <> [] -> (forall tk, tk ∈ d_tasks d -> no_error_link tk -> never_fails E tk) ->
    running E d uri s -> here F s -> exists n, (n <= count d F)%nat /\ main_status (after E n s) = Some FCompleted.
  Proof.
    intros Sy Hne Hnf. remember (count d F) as c eqn:Hc. revert F s Hc. induction (lt_wf c) as [c _ IH]. intros F s -> R H.
    assert (Hi := H). destruct Hi as (V & y & I & Hf). pose proof (iv_y _ _ _ _ _ _ _ _ _ I) as Hy.
    assert (main_status s = Some (i_status y)) as Hms by (unfold main_status; by rewrite Hy).
    destruct (iv_stat _ _ _ _ _ _ _ _ _ I) as [Ha|Ha]; [|exists 0%nat; split; [lia|cbn; congruence]].
    destruct (decide (s_queue s = [])) as [Hq|Hq].
    { exists 0%nat. split; [lia|]. cbn. rewrite Hms. f_equal. apply Hf; [done|]. by eapply idle_closed. }
    destruct (step_here d sync calls_ok G AC NS PT E EH NC SO C L NSF HS HSR HT HC uri F s R H) as (_ & H2 & _).
    destruct H2 as [(_ & _ & _ & Hcut)|(F' & Hs & H2 & Hlt)]; [congruence|done| |].
    - destruct (Hcut Sy) as (tk & Htk & Hno & Hb). by destruct Hb; auto.
    - specialize (Hlt Sy). destruct (IH (count d F') Hlt F' _ eq_refl (running_step _ _ _ _ R) H2) as (n & Hn & Hm).
      exists (S n). split; [lia|]. done.
  Qed.

  (** ** What the log says at the end *)
  Lemma told_tasks F s : calls_ok -> here F s -> forall tk z, tk ∈ d_tasks d -> F !! t_id tk = Some z -> task_story d s tk z.
  Proof.
    intros Hc (V & y & I & _) tk z Htk HF. pose proof (iv_told _ _ _ _ _ _ _ _ _ I) as T.
    assert (forall e, e ∈ trace s <-> e ∈ s_log s) as Htr by (intros e; apply in_rev_elem).
    assert (forall l, l ∈ d_links d -> link_got s l LTrue <-> V !! l_id l = Some LTrue) as HVt.
    { intros l Hl. unfold link_got. rewrite Htr. split; [|apply (to_V _ _ _ _ _ _ _ T)]. intros H.
      destruct (to_set _ _ _ _ _ _ _ T _ _ H) as [?|[? _]]; done. }
    assert (Hlive : live V tk <-> reached s tk).
    { unfold live, reached. split; (intros [?|(l & Hl & H)]; [by left|right]; exists l; split; [done|]);
        apply (g_from d G tk l Htk) in Hl as [Hl _]; by apply HVt. }
    destruct (iv_F _ _ _ _ _ _ _ _ _ I _ _ HF) as [Hz _].
    destruct (to_rule _ _ _ _ _ _ _ T tk z Htk HF) as (v & Hv1 & Hv2).
    split; [done| | | | | |].
    - intros z' Hz'. unfold task_got. rewrite Htr. split.
      + intros H. pose proof (to_upd _ _ _ _ _ _ _ T _ _ Hz' ltac:(done) H). congruence.
      + intros ->. by apply (to_F _ _ _ _ _ _ _ T).
    - rewrite <- Hlive. by apply (to_live _ _ _ _ _ _ _ T).
    - split.
      + intros H ->. destruct (to_eval _ _ _ _ _ _ _ T _ _ H) as (_ & [H1|[H1|[H1|(H1 & _)]]]); [done|by rewrite HF in H1..].
      + intros Hn. apply (to_call _ _ _ _ _ _ _ T); [done|]. rewrite HF. destruct Hz as [Hz|[Hz|Hz]]; [left; by rewrite Hz|by destruct Hn|right; by rewrite Hz].
    - intros o. unfold act_gave. rewrite Htr. intros H. destruct (to_out _ _ _ _ _ _ _ T _ _ Hc H) as [?|[?|(? & _)]]; congruence.
    - intros Hn. destruct (to_res _ _ _ _ _ _ _ T _ _ Hc HF Hn) as [o Ho]. exists o. unfold act_gave. by rewrite Htr.
    - exists v. split.
      + intros Hd l Hl Hty b. unfold link_gave. rewrite Htr. by apply Hv2.
      + intros l Hl. specialize (Hv1 l Hl). apply (g_to d G tk l Htk) in Hl as [Hl _]. split.
        * rewrite HVt by done. rewrite Hv1. split; [intros [= H]; exact H|by intros ->].
        * unfold link_got. rewrite Htr. split.
          -- intros H. destruct (to_set _ _ _ _ _ _ _ T _ _ H) as [H'|[? _]]; [|done]. rewrite Hv1 in H'. injection H' as H'. unfold fate in H'.
             destruct (decide (z = TSkipped)); [done|]. destruct (decide (z = TFailed)); [by destruct (is_type _ _)|by destruct (followed _ _ _)].
          -- intros ->. apply (to_V _ _ _ _ _ _ _ T). by rewrite Hv1.
  Qed.

  Lemma lap_here F s : sync -> (forall tk, tk ∈ d_tasks d -> no_error_link tk -> never_fails E tk) ->
    here F (do_step E s).2 -> here F (lap E s).2.
  Proof.
    intros Sy Hnf H. assert (on F (lap E s).2) as [?|(_ & _ & _ & Hcut)]; [|done|].
    - unfold lap. assert (kp (A:=bool) (bind (if e_ext E then record_state E else ret tt) (fun _ => ret true)) /\
        kp (A:=bool) (bind (if e_ext E then record_state E else ret tt) (fun _ => ret false))) as [K1 K2].
      { split; (apply kp_bind; [destruct (e_ext E); [apply kp_record|apply kp_ret]|intros; apply kp_ret]). }
      unfold bind at 1. destruct (do_step E s) as [[b| | |] s1]; try by left. destruct b; [apply K1|apply K2]; by left.
    - destruct (Hcut Sy) as (tk & Htk & Hno & Hb). by destruct Hb; auto.
  Qed.
  Lemma completes_laps uri F s : sync -> d_tasks d <> [] -> (forall tk, tk ∈ d_tasks d -> no_error_link tk -> never_fails E tk) ->
    running E d uri s -> here F s -> exists n, (n <= count d F)%nat /\ main_status (laps E n s) = Some FCompleted /\
      forall k, (k < n)%nat -> (exists F', here F' (laps E k s)) /\ s_queue (laps E k s) <> [].
  Proof.
    intros Sy Hne Hnf. remember (count d F) as c eqn:Hc. revert F s Hc. induction (lt_wf c) as [c _ IH]. intros F s -> R H.
    assert (Hi := H). destruct Hi as (V & y & I & Hf). pose proof (iv_y _ _ _ _ _ _ _ _ _ I) as Hy.
    assert (main_status s = Some (i_status y)) as Hms by (unfold main_status; by rewrite Hy).
    destruct (iv_stat _ _ _ _ _ _ _ _ _ I) as [Ha|Ha]; [|exists 0%nat; split_and!; [lia|cbn; congruence|lia]].
    destruct (decide (s_queue s = [])) as [Hq|Hq].
    { exists 0%nat. split_and!; [lia| |lia]. cbn. rewrite Hms. f_equal. apply Hf; [done|]. by eapply idle_closed. }
    destruct (step_here d sync calls_ok G AC NS PT E EH NC SO C L NSF HS HSR HT HC uri F s R H) as (_ & H2 & _).
    destruct H2 as [(_ & _ & _ & Hcut)|(F' & Hs & H2 & Hlt)]; [congruence|done| |].
    - destruct (Hcut Sy) as (tk & Htk & Hno & Hb). by destruct Hb; auto.
    - specialize (Hlt Sy). apply (lap_here _ _ Sy Hnf) in H2.
      destruct (IH (count d F') Hlt F' _ eq_refl (lap_running _ _ _ _ R) H2) as (n & Hn & Hm & Hk).
      exists (S n). split_and!; [lia|done|]. intros [|k] Hkn; [split; [by exists F|done]|]. apply Hk. lia.
  Qed.
End Entire.

(** ** Flows *)
Lemma sync_noret ok a : act_sync ok a -> act_noret a.
Proof. induction a; cbn; try done. Qed.
Lemma count_start d : count d ∅ = length (d_tasks d).
Proof.
  unfold count. f_equal. induction (d_tasks d) as [|a l IH]; [done|]. cbn. rewrite lookup_empty. cbn. by rewrite IH.
Qed.
Section Flows.
  Local Set Default Proof Using "Type*".
  Context (E : env) (d : defn) (uri : string) (SF : simple_flow d) (OE : orderly E) (EH : no_takeover E d).
  Lemma flow_once s : visited E d uri s -> NoDup (evaluations s).
  Proof.
    intros V. destruct SF as (B & AC & PT & NS). destruct OE as (NC & SO & C & L & NSF).
    destruct (visited_on d (mk_mode False False) False (built_graph d B) AC NS PT E EH NC SO C L NSF ltac:(done) ltac:(done) ltac:(done) ltac:(done) uri s V)
      as [F [(V' & y & I & _)|(_ & N & _)]]; [|done].
    apply (to_once _ _ _ _ _ _ _ (iv_told _ _ _ _ _ _ _ _ _ I)).
  Qed.
  Lemma flow_on_noret s : no_return E -> visited E d uri s -> main_status s = Some FCompleted ->
    exists F, here d (mk_mode False True) (forall tk, tk ∈ d_tasks d -> smooth E tk) F s.
  Proof.
    intros NR V Hm. destruct SF as (B & AC & PT & NS). destruct OE as (NC & SO & C & L & NSF).
    destruct (visited_on d (mk_mode False True) (forall tk, tk ∈ d_tasks d -> smooth E tk) (built_graph d B) AC NS PT E EH NC SO C L NSF ltac:(done) ltac:(done) ltac:(done) ltac:(done) uri s V)
      as [F [H|(_ & _ & H & _)]]; [by exists F|]. specialize (H I). rewrite Hm in H. done.
  Qed.
  Lemma flow_story s : no_return E -> (forall tk, tk ∈ d_tasks d -> smooth E tk) -> visited E d uri s -> main_status s = Some FCompleted ->
    forall tk, tk ∈ d_tasks d -> exists z, task_story d s tk z.
  Proof.
    intros NR Sm V Hm tk Htk. destruct (flow_on_noret s NR V Hm) as [F H].
    destruct SF as (B & AC & PT & NS). destruct OE as (NC & SO & C & L & NSF).
    destruct (completed_closed d (mk_mode False True) (forall tk, tk ∈ d_tasks d -> smooth E tk) (built_graph d B) AC NS PT E EH NC SO C L NSF ltac:(done) ltac:(done) ltac:(done) ltac:(done) F s H Hm tk Htk) as [z Hz].
    exists z. by apply (told_tasks d (mk_mode False True) (forall tk, tk ∈ d_tasks d -> smooth E tk) (built_graph d B) AC NS PT E EH NC SO C L NSF ltac:(done) ltac:(done) ltac:(done) ltac:(done) F).
  Qed.
  Lemma flow_nothing_left s : no_return E -> visited E d uri s -> main_status s = Some FCompleted ->
    s_queue s = [] /\ exists y, s_insts s !! 0%nat = Some y /\
      forall id t, i_tasks y !! id = Some t -> exists x, s_tis s !! t = Some x /\ TDone <= ti_status x.
  Proof.
    intros NR V Hm. destruct (flow_on_noret s NR V Hm) as [F H].
    destruct SF as (B & AC & PT & NS). destruct OE as (NC & SO & C & L & NSF).
    pose proof (completed_closed d (mk_mode False True) (forall tk, tk ∈ d_tasks d -> smooth E tk) (built_graph d B) AC NS PT E EH NC SO C L NSF ltac:(done) ltac:(done) ltac:(done) ltac:(done) F s H Hm) as Hcl.
    destruct H as (V' & y & I & _). split.
    - destruct (s_queue s) as [|[w u] q] eqn:Hq; [done|]. destruct (iv_queue _ _ _ _ _ _ _ _ _ I w u) as (id & x & Hid & HF & _); [rewrite Hq; left|].
      destruct (iv_reg _ _ _ _ _ _ _ _ _ I _ _ Hid) as (tk & _ & Htk & <- & _). destruct (Hcl tk Htk). congruence.
    - exists y. split; [apply I|]. intros id t Ht. destruct (iv_reg _ _ _ _ _ _ _ _ _ I _ _ Ht) as (tk & x & Htk & <- & Hx & _ & _ & Hst & _).
      exists x. split; [done|]. apply Hst, (Hcl tk Htk).
  Qed.
  Lemma flow_once_or_skipped s : no_return E -> (forall tk, tk ∈ d_tasks d -> smooth E tk) -> visited E d uri s -> main_status s = Some FCompleted ->
    forall tk, tk ∈ d_tasks d -> once_or_skipped s tk.
  Proof.
    intros NR Sm V Hm tk Htk. destruct (flow_story s NR Sm V Hm tk Htk) as [z T]. pose proof (flow_once s V) as N.
    destruct (ts_ends _ _ _ _ T) as [Hz|[Hz|Hz]].
    - left. assert (z <> TSkipped) as Hn by (by rewrite Hz). split.
      + pose proof (proj2 (ts_evaluated _ _ _ _ T) Hn) as Hin. apply elem_of_list_split in Hin as (r1 & r2 & Hr). exists r1, r2. split; [done|].
        rewrite Hr in N. apply NoDup_app in N as (_ & N1 & N2). apply NoDup_cons in N2 as [N2 _]. split; [|done].
        intros Hi. apply (N1 _ Hi). left.
      + intros Hg. apply Hn. symmetry. apply (ts_only _ _ _ _ T); [by right; left|done].
    - right. split; [intros Hi; by apply (ts_evaluated _ _ _ _ T) in Hi|]. apply (ts_only _ _ _ _ T); [by right; left|done].
    - left. assert (z <> TSkipped) as Hn by (by rewrite Hz). split.
      + pose proof (proj2 (ts_evaluated _ _ _ _ T) Hn) as Hin. apply elem_of_list_split in Hin as (r1 & r2 & Hr). exists r1, r2. split; [done|].
        rewrite Hr in N. apply NoDup_app in N as (_ & N1 & N2). apply NoDup_cons in N2 as [N2 _]. split; [|done].
        intros Hi. apply (N1 _ Hi). left.
      + intros Hg. apply Hn. symmetry. apply (ts_only _ _ _ _ T); [by right; left|done].
  Qed.
End Flows.
Section Completes.
  Local Set Default Proof Using "Type*".
  Context (E : env) (d : defn) (uri : string) (SF : simple_flow d) (OE : orderly E).
  Lemma flow_here_sync s : sync_env false E -> failures_handled E d -> running E d uri s -> exists F, here d (mk_mode True True) False F s.
  Proof.
    intros SE FH V. destruct SF as (B & AC & PT & NS). destruct OE as (NC & SO & C & L & NSF).
    assert (no_return E) as NR by (intros n v; apply (sync_noret false), SE).
    destruct (running_on d (mk_mode True True) False (built_graph d B) AC NS PT E (or_intror FH) NC SO C L NSF ltac:(done) ltac:(done) ltac:(done) ltac:(done) uri s V)
      as [F [H|(_ & _ & _ & H)]]; [by exists F|]. destruct (H I) as (tk & Htk & Hn & Hb). by destruct Hb; auto.
  Qed.
  Lemma flow_completes s : sync_env false E -> failures_handled E d -> d_tasks d <> [] -> running E d uri s ->
    (exists n, (n <= length (d_tasks d))%nat /\ main_status (after E n s) = Some FCompleted) /\
    (exists n, (n <= length (d_tasks d))%nat /\ main_status (laps E n s) = Some FCompleted).
  Proof.
    intros SE FH Hne R. destruct (flow_here_sync s SE FH R) as [F H].
    destruct SF as (B & AC & PT & NS). destruct OE as (NC & SO & C & L & NSF).
    assert (no_return E) as NR by (intros n v; apply (sync_noret false), SE).
    assert (count d F <= length (d_tasks d))%nat as Hc by (rewrite <- count_start; apply (count_le d (built_graph d B) AC NS PT ∅ F), map_empty_subseteq).
    split.
    - destruct (completes d (mk_mode True True) False (built_graph d B) AC NS PT E (or_intror FH) NC SO C L NSF ltac:(done) ltac:(done) ltac:(done) ltac:(done) uri F s I Hne FH R H)
        as (n & Hn & Hm). exists n. split; [lia|done].
    - destruct (completes_laps d (mk_mode True True) False (built_graph d B) AC NS PT E (or_intror FH) NC SO C L NSF ltac:(done) ltac:(done) ltac:(done) ltac:(done) uri F s I Hne FH R H)
        as (n & Hn & Hm & _). exists n. split; [lia|done].
  Qed.
  Lemma flow_run_completes ro ins : sync_env false E -> failures_handled E d -> d_tasks d <> [] ->
    (run_flow E ro d uri ins).1 = Ok tt -> Z.of_nat (length (d_tasks d)) < ro_max ro - first_count ro ->
    main_status (run_flow E ro d uri ins).2 = Some FCompleted.
  Proof.
    intros SE FH Hne Hok Hlt.
    assert ((run_begin E ro ins (init_st d uri)).1 = Ok tt) as Hb.
    { destruct (out_ok (run_begin E ro ins (init_st d uri)).1) as [H|H]; [done|]. destruct (run_flow_early _ _ _ _ _ H) as [_ Ho]. congruence. }
    destruct (flow_completes _ SE FH Hne (running_prepare _ _ _ ro ins Hb)) as [_ (n & Hn & Hm)].
    unfold main_status in Hm at 1. destruct (s_insts (laps E n _) !! 0%nat) as [y|] eqn:Hy; [|done]. injection Hm as Hm.
    destruct (run_ends E ro d uri ins n y Hok Hy) as (m & r & _ & _ & _ & Hs); [by rewrite Hm|lia|]. by rewrite Hs, Hm.
  Qed.
End Completes.
