(** The evaluations of one task instance during a run: iterators, doWhile tasks, retries. No Go
    counterpart (proofs). *)
From Verif Require Export Acts Ends.
Local Open Scope Z_scope.

(** ** What is seen of a list of events *)
Lemma calls_app i id a b : calls i id (a ++ b) = calls i id a ++ calls i id b.
Proof. apply omap_app. Qed.
Lemma outcomes_app i id a b : outcomes i id (a ++ b) = outcomes i id a ++ outcomes i id b.
Proof. apply omap_app. Qed.
Lemma conditions_app i id a b : conditions i id (a ++ b) = conditions i id a ++ conditions i id b.
Proof. apply omap_app. Qed.
Lemma calls_marks i id l : calls i id (marks l) = calls i id l.
Proof. induction l as [|e l IH]; [done|]. destruct e; cbn; try exact IH; try (case_bool_decide; [f_equal|]; exact IH). Qed.
Lemma outcomes_marks i id l : outcomes i id (marks l) = outcomes i id l.
Proof. induction l as [|e l IH]; [done|]. destruct e; cbn; try exact IH; try (case_bool_decide; [f_equal|]; exact IH). Qed.
Lemma conditions_marks i id l : conditions i id (marks l) = conditions i id l.
Proof. induction l as [|e l IH]; [done|]. destruct e; cbn; try exact IH; try (case_bool_decide; [f_equal|]; exact IH). Qed.
Lemma calls_pairs i tk it ps : calls i (t_id tk) (pairs i tk it ps) = (fun p => (p.1, it)) <$> ps.
Proof. induction ps as [|p ps IH]; [done|]. cbn. rewrite bool_decide_true by done. by f_equal. Qed.
Lemma outcomes_pairs i tk it ps : outcomes i (t_id tk) (pairs i tk it ps) = map snd ps.
Proof. induction ps as [|p ps IH]; [done|]. cbn. rewrite bool_decide_true by done. by f_equal. Qed.
Lemma conditions_pairs i tk it ps : conditions i (t_id tk) (pairs i tk it ps) = [].
Proof. induction ps as [|p ps IH]; [done|]. done. Qed.

Section Rounds.
  Local Set Default Proof Using "Type*".
  Context (E : env) (d : defn) (uri : string).

  Lemma step_ti_is s t i tk : running E d uri s -> ti_is s t i tk -> ti_is (do_step E s).2 t i tk.
  Proof.
    intros [c H]%running_reach Ht. destruct (do_step_cases E s) as [->|(w & t0 & q & x0 & y0 & Hqs & Hx0 & Hy0 & Ha & ->)]; [done|].
    pose proof (popped_reach _ _ _ _ _ _ _ _ _ _ H Hqs Hx0 Hy0 Ha) as H1.
    pose proof (exec_asteps E d uri (Some t0) t0 _ H1) as St. pose proof (reach_fresh _ _ _ _ _ H1) as F1.
    destruct (asteps_ind2 E (Some t0) _ (fun _ s' => ti_is s' t i tk) F1 Ht) with (3 := St) as (l & _ & Hl); [..|exact Hl].
    - intros l a b F Hl Hp S1 _. eapply ti_is_grows; [by eapply astep_grows|done].
    - intros l a b e F Hl Hp S1 _. eapply ti_is_grows; [by eapply astep_grows|done].
  Qed.

  Lemma record_tis s : s_tis (record_state E s).2 = s_tis s.
  Proof.
    unfold record_state. destruct (e_rec E) as [m|]; [|done]. unfold bind.
    destruct (record_snapshot m), (record_steps m), (e_ext E); done.
  Qed.

  (** The evaluation in terms of [tr]. *)
  Lemma evaluates_tr s t x r s1 Q :
    running E d uri s -> evaluates E s t x r s1 ->
    (forall w q, s_queue s = (w, t) :: q ->
      tr t (ti_inst x) (ti_task x) ((if bool_decide (ti_status x = TWaiting) then beh_post else beh_eval) E (t_type (ti_task x)) t) (popped w t x q s) Q) ->
    exists w l, Q (Ok r) s1 (marks (rev l)) /\ happened s s1 = EvQDel w (ti_inst x) (t_id (ti_task x)) :: rev l /\
      good t (ti_inst x) (ti_task x) s1.
  Proof.
    intros R (Hm & Hx & Hs & Hd & w & q & Hq & Hr) HQ. apply running_reach in R as [c R].
    unfold main_status in Hm. destruct (s_insts s !! 0%nat) as [y|] eqn:Hy; [|done]. injection Hm as Ha.
    pose proof (popped_reach _ _ _ _ _ _ _ _ _ _ R Hq Hx Hy Ha) as R1. pose proof (fresh_okq _ (reach_fresh _ _ _ _ _ R1)) as F1.
    assert (good t (ti_inst x) (ti_task x) (popped w t x q s)) as G.
    { assert (ti_is (popped w t x q s) t (ti_inst x) (ti_task x)) as Ht by (exists x; done). split; [done|].
      destruct (inv_task _ _ _ _ _ R1 _ _ _ Ht) as (d' & h & (y' & Hy' & _) & _). eauto. }
    destruct (HQ w q Hq G) as (G' & l & Hl & H).
    change (set_s_log (EvQDel w (ti_inst x) (t_id (ti_task x)) :: s_log s) (set_s_queue q (set_s_step (S (s_step s)) s))) with (popped w t x q s) in Hr.
    rewrite Hr in G', Hl, H. cbn [fst snd] in *. exists w, l. split_and!; [done| |done].
    unfold happened, trace. rewrite Hl.
    change (s_log (popped w t x q s)) with (EvQDel w (ti_inst x) (t_id (ti_task x)) :: s_log s).
    rewrite rev_app_distr. cbn [rev]. rewrite <- app_assoc. by rewrite drop_app.
  Qed.

  Lemma conclude_wd s t x r s1 x1 :
    running E d uri s -> evaluates E s t x r s1 -> s_tis s1 !! t = Some x1 ->
    exists x2, s_tis (do_step E s).2 !! t = Some x2 /\ ti_wd x2 = ti_wd x1.
  Proof.
    intros R Ev Hx1. rewrite (evaluates_step _ _ _ _ _ _ Ev).
    destruct (evaluates_tr s t x r s1 (fun _ _ _ => True) R Ev) as (w & l & _ & _ & [[_ [Ho _]] _]).
    { intros w q Hq G. assert (G' := G). destruct G' as [G1 _].
      assert (quiet E t (ti_inst x) (ti_task x) (popped w t x q s)
        ((if bool_decide (ti_status x = TWaiting) then beh_post else beh_eval) E (t_type (ti_task x)) t (popped w t x q s)).2) as Hq1.
      { case_bool_decide; [apply post_quiet|apply eval_quiet]; apply G1. }
      destruct G1 as [Ht Ho]. destruct (Hq1 Ho) as (Ho' & _ & _ & I & _ & _ & _ & _ & _ & (lg & Hlg & _)). split.
      - split; [split; [exact (ti_is_quiet E t _ _ _ _ Ho Ht Hq1)|done]|]. destruct G as [_ [y Hy]]. destruct (I _ y Hy) as (y' & Hy' & _). eauto.
      - eexists. split; [exact Hlg|done]. }
    assert (wd_kept s1 (catch (conclude E t r) (exec_recover E t) s1).2) as [_ K].
    { pose proof ops_wd as O. apply (op_catch _ O); [|intros; by apply op_recover].
      destruct r as [e|[]]; cbn [conclude]; [by apply op_handle_error|by apply op_set_task_status|by apply op_task_done| |
        by apply op_set_task_status|by apply op_task_done].
      apply (op_bind _ O); [by apply op_track|]. intros. by apply op_schedule. }
    destruct (K t x1) as (x2 & Hx2 & _ & _ & Hw); [|done|eauto].
    destruct (decide (t < s_nti s1)%nat); [done|]. rewrite Ho in Hx1 by lia. done.
  Qed.

  (** An invariant of the working data of a task instance. *)
  Lemma rounds_inv t i tk (J : list round -> gmap string wval -> Prop) (F : nat -> st -> Prop) (P : list round -> round -> Prop) s0 x0 :
    running E d uri s0 -> s_tis s0 !! t = Some x0 -> ti_inst x0 = i -> ti_task x0 = tk -> J [] (ti_wd x0) ->
    (forall l s x r s1, running E d uri s -> s_tis s !! t = Some x -> ti_inst x = i -> ti_task x = tk -> J l (ti_wd x) ->
      evaluates E s t x r s1 -> ti_status x <> TWaiting -> F (length l) s ->
      P l (mk_round s (happened s s1) r) /\ exists x1, s_tis s1 !! t = Some x1 /\ J (l ++ [mk_round s (happened s s1) r]) (ti_wd x1)) ->
    forall l s, rounds E t s0 l s -> (forall k r, l !! k = Some r -> F k (rd_from r)) ->
      (running E d uri s /\ exists x, s_tis s !! t = Some x /\ ti_inst x = i /\ ti_task x = tk /\ J l (ti_wd x)) /\
      forall k r, l !! k = Some r -> P (take k l) r.
  Proof.
    intros R0 Hx0 Hi0 Ht0 J0 Hstep l s H. induction H as [|l s H IH|l s H IH Hq|l s x r s1 H IH Ev Hw].
    - intros _. split; [|done]. split; [done|]. exists x0. done.
    - intros HF. destruct (IH HF) as [[R (x & Hx & Hi)] HP]. split; [|done]. split; [by apply running_record|]. exists x. by rewrite record_tis.
    - intros HF. destruct (IH HF) as [[R (x & Hx & Hi & Ht & Hj)] HP]. split; [|done]. split; [by apply running_step|].
      destruct (tasks_isolated _ _ _ _ _ _ R Hx) as (new & x' & _ & Hx' & [(w & later & _ & q & Hq')|(_ & Hw & _)]); [by destruct (Hq w q)|].
      destruct (step_ti_is s t i tk R) as (x2 & Hx2 & Hi2 & Ht2); [by exists x|]. exists x'. rewrite Hx' in Hx2. injection Hx2 as <-.
      rewrite Hw. done.
    - intros HF. destruct IH as [[R (x' & Hx' & Hi & Ht & Hj)] HP].
      { intros k r' Hr. apply HF. by apply lookup_app_l_Some. }
      assert (x' = x) as ->. { destruct Ev as (_ & Hx & _). congruence. }
      destruct (Hstep l s x r s1) as (HPk & x1 & Hx1 & Hj1); try done.
      { apply (HF (length l) (mk_round s (happened s s1) r)). by apply list_lookup_middle. }
      split.
      + split; [by apply running_step|]. destruct (conclude_wd _ _ _ _ _ _ R Ev Hx1) as (x2 & Hx2 & Hw2).
        destruct (step_ti_is s t i tk R) as (x3 & Hx3 & Hi3 & Ht3); [by exists x|].
        exists x2. rewrite Hx2 in Hx3. injection Hx3 as <-. split_and!; try done. by rewrite Hw2.
      + intros k r' [Hk|[Hk Hr]]%lookup_app_Some.
        * rewrite take_app_le; [by apply HP|]. apply lookup_lt_Some in Hk. lia.
        * destruct (k - length l)%nat eqn:Hkl; [|done]. injection Hr as <-. replace k with (length l) by lia. by rewrite take_app.
  Qed.

  (** ** Retries *)
  Section Few.
    Context (t i : nat) (tk : task).
    Notation id := (t_id tk).
    Definition few {A} (n : Z) (o : out A) (s' : st) (l : list event) : Prop :=
      match o with Ok _ => Z.of_nat (length (calls i id l)) <= n | _ => True end.

    Lemma few_wd k w s c : k <> "_retryOnErrorAttr" -> has_budget t tk s c ->
      tr t i tk (set_wd t k w) s (fun o s' l => o = Ok tt /\ l = [] /\ has_budget t tk s' c).
    Proof.
      intros Hk B. apply tr_set_wd. intros s' G Hs. split_and!; [done..|]. eapply has_budget_wd; [exact Hk|exact Hs|exact B].
    Qed.
    Lemma few_status z s c : has_budget t tk s c ->
      tr t i tk (set_task_status t z) s (fun o s' l => o = Ok tt /\ l = [] /\ has_budget t tk s' c).
    Proof. intros B. apply tr_set_status. intros s' Hs. split_and!; [done..|]. by eapply has_budget_ext. Qed.
    Lemma few_eval s c : has_budget t tk s c ->
      tr t i tk (eval_retry E t) s (fun o s' l => match o with
        | Ok _ => Z.of_nat (length (calls i id l)) <= 1 + Z.max 0 c /\ exists c', has_budget t tk s' c'
        | Panic _ => False | _ => True end).
    Proof.
      intros B. eapply tr_mono; [by apply eval_retry_spec|]. intros [r|m| |] s' l H; try done.
      destruct H as (ps & c' & -> & B' & Hu & Hn & _). rewrite calls_pairs, fmap_length. unfold used in Hu. split; [lia|eauto].
    Qed.
    Lemma few_iter_step it s c : has_budget t tk s c -> tr t i tk (iter_step E t it) s (few (1 + Z.max 0 c)).
    Proof.
      intros B. unfold iter_step. destruct (iter_next it) as [it' o]. apply tr_bind.
      eapply tr_mono; [by apply few_wd|]. intros ? s1 l1 (-> & -> & B1).
      destruct o as [[[k v] ix]|]; [|apply tr_ret; cbn; lia]. apply tr_bind.
      eapply tr_mono; [by apply few_wd|]. intros ? s2 l2 (-> & -> & B2). apply tr_bind.
      eapply tr_mono; [by apply few_eval|]. intros [r|m| |] s3 l3 H3; try done. destruct H3 as [Hn (c' & B3)].
      assert (forall o : err + eval_result, few (1 + Z.max 0 c) (Ok o) s3 ([] ++ [] ++ l3 ++ [])) as Hf.
      { intros o. cbn [app few]. by rewrite app_nil_r. }
      destruct r as [e|[]]; [|apply tr_ret; apply (Hf (inr EvalDone))|]; apply tr_bind; (eapply tr_mono; [by apply (few_status _ _ c')|]);
        intros ? s4 l4 (-> & -> & B4); apply tr_ret; apply (Hf (inr EvalDone)).
    Qed.
    Lemma few_iter s c : has_budget t tk s c -> tr t i tk (iter_eval E t) s (few (1 + Z.max 0 c)).
    Proof.
      intros B. unfold iter_eval. apply tr_get_ti. intros x Hx Hi Ht.
      case_bool_decide; [apply tr_ret; cbn; lia|].
      destruct (ti_wd x !! "_iterator") as [[]|]; try (by apply tr_panic); [by apply few_iter_step|].
      rewrite Ht. destruct (t_loop tk) as [lc|]; [|apply tr_ret; cbn; lia]. apply tr_bind.
      assert (tr t i tk (iterate_on E t lc) s (fun o s' l => l = [] /\ has_budget t tk s' c)) as Hon.
      { unfold iterate_on. destruct (lc_iter lc) as [[]|]; [|by apply tr_ret..].
        apply tr_bind, tr_ext. intros s' ->. destruct (e_iter E _ _ src); [by apply tr_ret..|by apply tr_panic]. }
      eapply tr_mono; [exact Hon|]. intros [[e|v]|m| |] s1 l (-> & B1); try done; [apply tr_ret; cbn; lia|].
      assert (tr t i tk (match make_iter E v with
        | None => ret (inl (EOther ("iterator '" +:+ t_name tk +:+ "' not properly configured")))
        | Some it => set_wd t "_iterator" (WIter it) ;; set_wd t "iteration" (WIteration VNil VNil 0) ;; iter_step E t it end)
        s1 (few (1 + Z.max 0 c))) as Hgo.
      { destruct (make_iter E v); [|apply tr_ret; cbn; lia]. apply tr_bind.
        eapply tr_mono; [by apply few_wd|]. intros ? s2 l2 (-> & -> & B2). apply tr_bind.
        eapply tr_mono; [by apply few_wd|]. intros ? s3 l3 (-> & -> & B3). by apply few_iter_step. }
      destruct v; try (eapply tr_mono; [exact Hgo|]; intros o' s' l'; exact (fun H => H)). apply tr_ret. cbn. lia.
    Qed.
    Lemma few_init_index s c : has_budget t tk s c ->
      tr t i tk (init_index t) s (fun o s' l => o = Ok tt /\ l = [] /\ has_budget t tk s' c).
    Proof. intros B. unfold init_index. apply tr_get_ti. intros x _ _ _. destruct (ti_wd x !! _); by apply few_wd. Qed.
    Lemma few_loop s : tr t i tk (finally (check_cond E t) (update_index t)) s (fun o s' l => calls i id l = []).
    Proof.
      apply tr_finally. eapply tr_mono; [apply check_cond_spec|]. intros o s1 l [_ H].
      assert (calls i id l = [] -> tr t i tk (update_index t) s1 (fun o s' l' => calls i id (l ++ l') = [])) as Hu.
      { intros Hl. unfold update_index. apply tr_get_ti. intros x _ _ _.
        assert (forall k w, tr t i tk (set_wd t k w) s1 (fun o s' l' => calls i id (l ++ l') = [])) as Hw.
        { intros k w. apply tr_set_wd. intros. by rewrite app_nil_r. }
        destruct (ti_wd x !! _) as [[]|]; try apply Hw; apply tr_panic; by rewrite app_nil_r. }
      assert (calls i id l = []) as Hl.
      { destruct o as [r|m| |]; try done.
        - destruct (t_loop tk ≫= lc_cond) as [src|]; [destruct H as [[-> _]|(b & -> & _)]; done|by destruct H as [-> _]].
        - by destruct H as [->|(v & ->)]. }
      specialize (Hu Hl). destruct o as [r|m| |]; try done; (eapply tr_mono; [exact Hu|]; intros [[]|?| |] ? ?; done).
    Qed.
    Lemma few_dw s c : has_budget t tk s c -> tr t i tk (dw_eval E t) s (few (1 + Z.max 0 c)).
    Proof.
      intros B. unfold dw_eval. apply tr_get_ti. intros x Hx Hi Ht.
      case_bool_decide; [apply tr_ret; cbn; lia|]. apply tr_bind.
      eapply tr_mono; [by apply few_init_index|]. intros ? s1 l1 (-> & -> & B1). apply tr_bind.
      eapply tr_mono; [by apply few_eval|]. intros [r|m| |] s3 l3 H3; try done. destruct H3 as [Hn (c' & B3)].
      destruct r as [e|[]].
      2: { eapply tr_mono; [apply few_loop|]. intros [o|?| |] s4 l4 H4; try done. cbn [app few]. rewrite calls_app, H4, app_nil_r. done. }
      all: apply tr_bind; (eapply tr_mono; [by apply (few_status _ _ c')|]); intros ? s4 l4 (-> & -> & B4); apply tr_ret;
        cbn [app few]; by rewrite app_nil_r.
    Qed.

    Lemma still_post : rq t i tk (still E t i tk) (post_eval_activity E t).
    Proof.
      pose proof (still0 E t i tk) as L. pose proof (still1 E t i tk) as L1. unfold post_eval_activity.
      apply (rq_recover _ _ _ _ _ L), (rq_get_ti _ _ _ _ _ L). intros x Hi Ht. cbv zeta.
      apply (rq_ext_bind _ _ _ _ _ L). intros j v. apply (rq_bind _ _ _ _ _ L).
      - destruct (e_post E j v) eqn:Hp; [|apply (rq_ret _ _ _ _ _ L)]. apply (rq_bind _ _ _ _ _ L).
        { intros s Hs. assert (quiet E t i tk s (log_ev (EvPost (ti_inst x) (t_id (ti_task x))) s).2) as Hq.
          { apply (lv_evs _ _ _ _ (lv3 _ _ _ _ _ (quiet_leaves E t i tk))); [done|]. by rewrite Hi, Ht. }
          split; [|by destruct Hs]. split_and!; [done| |done]. by apply (logs_one silent (EvPost (ti_inst x) (t_id (ti_task x)))). }
        intros _. apply (rq_bind _ _ _ _ _ L); [apply rq_run_act; [done|done| |]; intros n Hn; exists j, v; right; eauto|]. intros []; [apply (rq_ret _ _ _ _ _ L)..|apply (rq_panic _ _ _ _ _ L)].
      - intros [|dn]; [apply (rq_ret _ _ _ _ _ L)|]. apply (rq_get_ti _ _ _ _ _ L). intros y _ Et. rewrite Et.
        destruct (ti_rerr y); [apply (rq_ret _ _ _ _ _ L)|]. destruct dn; [|apply (rq_ret _ _ _ _ _ L)].
        apply (rq_guard _ _ _ _ _ L); [apply (rq_output_icpt _ _ _ _ _ L)|].
        apply (rq_guard _ _ _ _ _ L); [|apply (rq_guard _ _ _ _ _ L); [apply (rq_asserts _ _ _ _ _ L)|apply (rq_ret _ _ _ _ _ L)]].
        destruct (accumulates tk); [apply (rq_accumulation _ _ _ _ _ L (stillA E t i tk))|].
        apply (rq_bind _ _ _ _ _ L); [apply (rq_output_mapper _ _ _ _ _ L)|]. intros. apply (rq_ret _ _ _ _ _ L).
    Qed.
    Lemma few_post s c : has_budget t tk s c -> tr t i tk (post_eval_activity E t) s (fun o s' l => l = [] /\ has_budget t tk s' c).
    Proof. intros B. apply (tr_still E); [apply still_post|]. intros o s' (_ & _ & Hw) _. split; [done|]. by eapply has_budget_ext. Qed.
    Lemma few_basic_post s c : has_budget t tk s c -> tr t i tk (basic_post E t) s (few (Z.max 0 c)).
    Proof.
      intros B. unfold basic_post. apply tr_bind. eapply tr_mono; [by apply few_post|]. intros [r|?| |] s1 l1 (-> & B1); try done.
      apply tr_get_ti. intros x Hx Hi Ht. rewrite Ht.
      assert (forall o : err + eval_result, tr t i tk (ret o) s1 (few (Z.max 0 c))) as Hret by (intros; apply tr_ret; cbn; lia).
      destruct r as [e|]; [|apply (Hret (inr EvalDone))]. destruct e; try apply (Hret (inl _)).
      destruct (t_retry tk) as [rc|] eqn:Hrc; [|apply (Hret (inl _))].
      apply tr_bind. eapply tr_mono; [by apply (retry_data_spec E t i tk)|]. intros o s2 l (-> & iv & w & -> & Hw & Hwr & Bw & Hit & Hsw).
      cbn beta iota. destruct (0 <? c) eqn:Hc; [apply Z.ltb_lt in Hc|apply tr_ret; cbn; lia].
      apply tr_bind, tr_set_wd. intros s3 G3 Hs3. specialize (Hs3 w Hw).
      assert (has_budget t tk s3 (c - 1)) as B3.
      { exists (<["_retryOnErrorAttr" := WRetry (c - 1) iv]> w). split; [done|]. unfold retries_left in Bw |- *. rewrite Hrc in Bw |- *.
        rewrite lookup_insert. by destruct Bw. }
      apply tr_bind. eapply tr_mono; [by apply few_eval|]. intros [r|?| |] s4 l4 H4; try done. destruct H4 as [Hn _].
      apply tr_ret. cbn [app few]. rewrite app_nil_r. lia.
    Qed.
    Lemma few_iter_post s c : has_budget t tk s c -> tr t i tk (iter_post E t) s (few 0).
    Proof.
      intros B. unfold iter_post. apply tr_bind. eapply tr_mono; [by apply few_post|]. intros [r|?| |] s1 l1 (-> & B1); try done.
      destruct r; apply tr_bind; (eapply tr_mono; [by apply (few_status _ _ c)|]); intros ? s4 l4 (-> & -> & B4); [by apply tr_ret|].
      apply tr_get_ti. intros x _ _ _. destruct (ti_wd x !! _) as [[]|]; first [by apply tr_panic|by apply tr_ret].
    Qed.
    Lemma few_dw_post s c : has_budget t tk s c -> tr t i tk (dw_post E t) s (few 0).
    Proof.
      intros B. unfold dw_post. apply tr_bind. eapply tr_mono; [by apply few_init_index|]. intros ? s1 l1 (-> & -> & B1).
      apply tr_bind. eapply tr_mono; [by apply few_post|]. intros [r|?| |] s2 l2 (-> & B2); try done.
      destruct r; apply tr_bind; (eapply tr_mono; [by apply (few_status _ _ c)|]); intros ? s4 l4 (-> & -> & B4); [by apply tr_ret|].
      eapply tr_mono; [apply few_loop|]. intros [o|?| |] s5 l5 H5; try done. cbn [app few]. by rewrite H5.
    Qed.
  End Few.

  Lemma few_calls s t x r s1 c :
    running E d uri s -> evaluates E s t x r s1 -> retries_left (ti_task x) (ti_wd x) c ->
    Z.of_nat (length (calls (ti_inst x) (t_id (ti_task x)) (happened s s1))) <=
      (if bool_decide (ti_status x = TWaiting) then 0 else 1) + Z.max 0 c.
  Proof.
    intros R Ev B. assert (Hx := proj1 (proj2 Ev)).
    destruct (evaluates_tr s t x r s1 (few (ti_inst x) (ti_task x) ((if bool_decide (ti_status x = TWaiting) then 0 else 1) + Z.max 0 c)) R Ev) as (w & l & H & -> & _).
    { intros w q Hq. assert (has_budget t (ti_task x) (popped w t x q s) c) as B'.
      { exists (ti_wd x). split; [|done]. unfold wd_of. change (s_tis (popped w t x q s)) with (s_tis s). by rewrite Hx. }
      case_bool_decide.
      - destruct (t_type (ti_task x)); cbn [beh_post]; [by apply few_basic_post| |];
        (eapply tr_mono; [by first [apply (few_iter_post _ _ _ _ c)|apply (few_dw_post _ _ _ _ c)]|]; intros [] ? ?; cbn; [lia|done..]).
      - destruct (t_type (ti_task x)); cbn [beh_eval]; [|by apply few_iter|by apply few_dw].
        unfold basic_eval. apply tr_get_ti. intros x' _ _ _. case_bool_decide; [apply tr_ret; cbn; lia|]. apply tr_bind.
        eapply tr_mono; [by apply few_eval|]. intros [r'|?| |] s4 l4 H4; try done. destruct H4 as [Hn _]. apply tr_ret.
        cbn [few]. by rewrite app_nil_r. }
    cbn [few] in H. rewrite calls_marks in H. exact H.
  Qed.

  Lemma basic_calls s t x r s1 c :
    running E d uri s -> evaluates E s t x r s1 -> ti_status x <> TWaiting -> t_type (ti_task x) = TBasic ->
    retries_left (ti_task x) (ti_wd x) c -> smooth E (ti_task x) ->
    exists r0, retried c (outcomes (ti_inst x) (t_id (ti_task x)) (happened s s1)) r0 /\
      r = match r0 with inl e => inl e | inr true => inr EvalDone | inr false => inr EvalWait end.
  Proof.
    intros R Ev Hw Hty B Sm. assert (Hx := proj1 (proj2 Ev)). assert (Hs := proj1 (proj2 (proj2 Ev))).
    destruct (evaluates_tr s t x r s1 (fun o s' l => match o with Ok r => exists r0, retried c (outcomes (ti_inst x) (t_id (ti_task x)) l) r0 /\
      r = match r0 with inl e => inl e | inr true => inr EvalDone | inr false => inr EvalWait end | _ => True end) R Ev) as (w & l & H & -> & _).
    { intros w q Hq. rewrite bool_decide_false by done. rewrite Hty. cbn [beh_eval]. eapply tr_mono.
      - apply (basic_eval_spec E t (ti_inst x) (ti_task x) _ c).
        + exists (ti_wd x). split; [|done]. unfold wd_of. change (s_tis (popped w t x q s)) with (s_tis s). by rewrite Hx.
        + intros x'. change (s_tis (popped w t x q s)) with (s_tis s). rewrite Hx. by intros [= <-].
      - intros [o|?| |] s' l H; try done. destruct H as (ps & c' & r0 & -> & _ & _ & _ & H & ->).
        exists r0. rewrite outcomes_pairs. auto. }
    cbn beta iota in H. rewrite outcomes_marks in H. exact H.
  Qed.

  (** ** Iterators *)
  Section Iterator.
    Context (t i : nat) (tk : task) (lc : loop_cfg) (v : val).
    Context (Hty : t_type tk = TIterator) (Hlc : t_loop tk = Some lc) (Hv : iterable E v).

    (** Round [k] of an iterator. *)
    Definition iter_ok (c0 : Z) (k : nat) (r : round) : Prop :=
      match elements_of E v !! k with
      | None => calls i (t_id tk) (rd_events r) = [] /\ rd_result r = inr EvalDone
      | Some p =>
          (forall ca, ca ∈ calls i (t_id tk) (rd_events r) -> ca.2 = Some (WIteration p.1 p.2 (Z.of_nat k))) /\
          length (calls i (t_id tk) (rd_events r)) = length (outcomes i (t_id tk) (rd_events r)) /\
          (smooth E tk -> exists c r0, used c0 c /\ retried c (outcomes i (t_id tk) (rd_events r)) r0 /\ rd_result r = loop_result r0)
      end.
    Definition iter_wd (c0 : Z) (k : nat) (w : gmap string wval) : Prop :=
      (exists c, retries_left tk w c /\ used c0 c) /\
      match k with
      | O => w !! "_iterator" = None
      | S _ => exists it, pos E v k = Some it /\ w !! "_iterator" = Some (WIter it)
      end.

    Lemma iter_step_ok c0 k s x r s1 :
      running E d uri s -> ti_inst x = i -> ti_task x = tk -> iter_wd c0 k (ti_wd x) -> evaluates E s t x r s1 -> ti_status x <> TWaiting ->
      (k = 0%nat -> iterates E t s lc v) ->
      iter_ok c0 k (mk_round s (happened s s1) r) /\ exists x1, s_tis s1 !! t = Some x1 /\ iter_wd c0 (S k) (ti_wd x1).
    Proof.
      intros R Hi Ht [(c & B & Hu) Hk] Ev Hnw H0. assert (Hx := proj1 (proj2 Ev)). assert (Hs := proj1 (proj2 (proj2 Ev))).
      destruct (evaluates_tr s t x r s1 (fun o s' l => match o with Ok r => iter_round E t i tk v k c r s' l | _ => True end) R Ev) as (w & l & H & Hh & _).
      { intros w q Hq. rewrite bool_decide_false by done. rewrite Ht, Hty, Hi. cbn [beh_eval].
        assert (has_budget t tk (popped w t x q s) c) as B'.
        { exists (ti_wd x). split; [|done]. unfold wd_of. change (s_tis (popped w t x q s)) with (s_tis s). by rewrite Hx. }
        assert (wd_of t (popped w t x q s) = Some (ti_wd x)) as Hwd.
        { unfold wd_of. change (s_tis (popped w t x q s)) with (s_tis s). by rewrite Hx. }
        assert (forall x', s_tis (popped w t x q s) !! t = Some x' -> ti_status x' <> TSkipped) as Hst.
        { intros x'. change (s_tis (popped w t x q s)) with (s_tis s). rewrite Hx. by intros [= <-]. }
        destruct k as [|k].
        - eapply tr_mono; [apply (iter_first_spec E t i tk lc v _ c (ti_wd x)); try done|].
          + by apply H0.
          + destruct v; try done. cbn. cbn in Hv. destruct (e_toint E _); done.
          + intros [] ? ?; done.
        - destruct Hk as (it & Hp & Hit). eapply tr_mono; [by apply (iter_next_spec E t i tk (S k) it v _ c (ti_wd x))|].
          intros [] ? ?; done. }
      cbn beta iota in H. destruct H as [(w' & it' & Hw' & Hp' & Hit') H]. unfold iter_ok. cbn [rd_events rd_result]. rewrite Hh.
      change (EvQDel w (ti_inst x) (t_id (ti_task x)) :: rev l) with ([EvQDel w (ti_inst x) (t_id (ti_task x))] ++ rev l).
      rewrite calls_app, outcomes_app. cbn [calls outcomes omap list_omap app].
      rewrite <- (calls_marks i (t_id tk) (rev l)), <- (outcomes_marks i (t_id tk) (rev l)).
      unfold wd_of in Hw'. destruct (s_tis s1 !! t) as [x1|] eqn:Hx1; [|done]. injection Hw' as <-.
      assert (forall c', has_budget t tk s1 c' -> used c0 c' -> iter_wd c0 (S k) (ti_wd x1)) as Hfin.
      { intros c' (w1 & Hw1 & B1) Hu1. unfold wd_of in Hw1. rewrite Hx1 in Hw1. injection Hw1 as <-. split; [by exists c'|]. by exists it'. }
      destruct (elements_of E v !! k) as [p|].
      - destruct H as (ps & c' & r0 & -> & B1 & Hu1 & Hn & -> & Hsm). split; [split_and!|].
        + intros ca. rewrite calls_pairs. by intros (? & -> & _)%elem_of_list_fmap.
        + rewrite calls_pairs, outcomes_pairs, fmap_length, map_length. done.
        + intros Sm. exists c, r0. split_and!; [done| |done]. rewrite outcomes_pairs. by apply Hsm.
        + exists x1. split; [done|]. apply (Hfin c' B1). unfold used in *. lia.
      - destruct H as (-> & -> & B1). split; [done|]. exists x1. split; [done|]. by apply (Hfin c B1).
    Qed.

    Lemma iterator_rounds c s0 x0 l s :
      running E d uri s0 -> s_tis s0 !! t = Some x0 -> ti_inst x0 = i -> ti_task x0 = tk -> ti_wd x0 !! "_iterator" = None ->
      retries_left tk (ti_wd x0) c -> rounds E t s0 l s ->
      (forall r, l !! 0%nat = Some r -> iterates E t (rd_from r) lc v) ->
      forall k r, l !! k = Some r -> iter_ok c k r.
    Proof.
      intros R0 Hx0 Hi0 Ht0 Hn B Hr Hf.
      destruct (rounds_inv t i tk (fun l => iter_wd c (length l)) (fun k s => k = 0%nat -> iterates E t s lc v) (fun l => iter_ok c (length l)) s0 x0) with (l := l) (s := s) as [_ H]; try done.
      - split; [|done]. exists c. split; [done|]. unfold used. lia.
      - intros l' s' x r s1 R Hx Hi Ht Hw Ev Hnw HF. rewrite app_length, Nat.add_1_r. by apply (iter_step_ok c (length l') s' x r s1).
      - intros k r Hk ->. by apply Hf.
      - intros k r Hk. specialize (H k r Hk). apply lookup_lt_Some in Hk. by rewrite take_length, Nat.min_l in H by lia.
    Qed.

    (** Without retries: one call for each element. *)
    Definition seen (l : list round) : list (option wval) :=
      flat_map (fun r => snd <$> calls i (t_id tk) (rd_events r)) l.
    Lemma iterator_visits s0 x0 l s :
      running E d uri s0 -> s_tis s0 !! t = Some x0 -> ti_inst x0 = i -> ti_task x0 = tk -> ti_wd x0 !! "_iterator" = None ->
      t_retry tk = None -> smooth E tk -> rounds E t s0 l s ->
      (forall r, l !! 0%nat = Some r -> iterates E t (rd_from r) lc v) ->
      seen l = take (length l) (imap (fun k p => Some (WIteration p.1 p.2 (Z.of_nat k))) (elements_of E v)) /\
      (forall k r, l !! k = Some r -> match rd_result r with
         | inr EvalDone => (length (elements_of E v) <= k)%nat
         | inl e => outcomes i (t_id tk) (rd_events r) = [Some e]
         | inr EvalRepeat | inr EvalWait => (k < length (elements_of E v))%nat /\ outcomes i (t_id tk) (rd_events r) = [None]
         | _ => False end).
    Proof.
      intros R0 Hx0 Hi0 Ht0 Hn Hrt Sm Hr Hf.
      assert (forall k r, l !! k = Some r -> iter_ok 0 k r) as H.
      { apply (iterator_rounds 0 s0 x0 l s); try done. unfold retries_left. by rewrite Hrt. }
      assert (forall c os r0, retried c os r0 -> c <= 0 -> exists o, os = [o] /\ match r0 with inl e => o = Some e | inr _ => o = None end) as Hre.
      { intros c os r0 Hret Hc. destruct Hret; [by exists None|by exists (Some e)|lia]. }
      split.
      - assert (forall (els : list (val * val)) l n, (forall k r, l !! k = Some r -> match els !! (n + k)%nat with
          | None => snd <$> calls i (t_id tk) (rd_events r) = [] | Some p => snd <$> calls i (t_id tk) (rd_events r) = [Some (WIteration p.1 p.2 (Z.of_nat (n + k)))] end) ->
          seen l = take (length l) (drop n (imap (fun k p => Some (WIteration p.1 p.2 (Z.of_nat k))) els))) as Hgen.
        { clear. intros els. induction l as [|r l IH]; intros n H; [done|]. cbn [seen flat_map length].
          assert (H0 := H 0%nat r eq_refl). rewrite Nat.add_0_r in H0.
          change (flat_map (fun r => snd <$> calls i (t_id tk) (rd_events r)) l) with (seen l). rewrite (IH (S n)).
          2: { intros k r' Hk. specialize (H (S k) r' Hk). by rewrite Nat.add_succ_r in H. }
          destruct (els !! n) as [p|] eqn:Hp.
          - rewrite H0. cbn [app]. rewrite (drop_S _ (Some (WIteration p.1 p.2 (Z.of_nat n))) n); [done|]. by rewrite list_lookup_imap, Hp.
          - rewrite H0. cbn [app]. apply lookup_ge_None in Hp.
            rewrite !drop_ge by (rewrite imap_length; lia). by rewrite !take_nil. }
        rewrite (Hgen (elements_of E v) l 0%nat); [done|]. intros k r Hk. specialize (H k r Hk). unfold iter_ok in H. cbn [Nat.add].
        destruct (elements_of E v !! k) as [p|].
        + destruct H as (Hc & Hlen & (c & r0 & Hu & Hret & _)); [done|]. destruct (Hre _ _ _ Hret) as (o & Ho & _); [unfold used in Hu; lia|].
          rewrite Ho in Hlen. destruct (calls i (t_id tk) (rd_events r)) as [|ca [|]]; try done. cbn. f_equal. apply Hc. by left.
        + by destruct H as [-> _].
      - intros k r Hk. specialize (H k r Hk). unfold iter_ok in H. destruct (elements_of E v !! k) as [p|] eqn:Hp.
        + destruct H as (Hc & Hlen & (c & r0 & Hu & Hret & ->)); [done|]. destruct (Hre _ _ _ Hret) as (o & Ho & Ho'); [unfold used in Hu; lia|].
          apply lookup_lt_Some in Hp. destruct r0 as [e|[]]; cbn; subst o; done.
        + destruct H as [_ ->]. by apply lookup_ge_None in Hp.
    Qed.
  End Iterator.

  (** ** doWhile *)
  Section DoWhile.
    Context (t i : nat) (tk : task) (Hty : t_type tk = TDoWhile).
    Notation id := (t_id tk).
    Definition repeats (r : round) : Prop := rd_result r = inr EvalRepeat.

    (** A round after the given ones. *)
    Definition dw_ok (c0 : Z) (l : list round) (r : round) : Prop := Forall repeats l ->
      let it := Some (WDoWhile (Z.of_nat (length l))) in
      (forall ca, ca ∈ calls i id (rd_events r) -> ca.2 = it) /\
      length (calls i id (rd_events r)) = length (outcomes i id (rd_events r)) /\
      match rd_result r with
      | inr EvalRepeat => conditions i id (rd_events r) = [(it, VBool true)]
      | inr EvalDone => conditions i id (rd_events r) = [(it, VBool false)] \/
          (conditions i id (rd_events r) = [] /\ (t_loop tk ≫= lc_cond) = None)
      | inr EvalWait => conditions i id (rd_events r) = []
      | inl e => conditions i id (rd_events r) = []
      | _ => False
      end /\
      (smooth E tk -> exists c r0, used c0 c /\ retried c (outcomes i id (rd_events r)) r0 /\
         match r0 with
         | inl e => rd_result r = inl e
         | inr false => rd_result r = inr EvalWait
         | inr true => rd_result r = inr EvalRepeat \/ rd_result r = inr EvalDone \/ exists e, rd_result r = inl e
         end).
    Definition dw_wd (c0 : Z) (l : list round) (w : gmap string wval) : Prop := Forall repeats l ->
      (exists c, retries_left tk w c /\ used c0 c) /\
      match l with
      | [] => w !! "iteration" = None
      | _ => w !! "iteration" = Some (WDoWhile (Z.of_nat (length l)))
      end.

    Lemma dw_step_ok c0 l s x r s1 :
      running E d uri s -> ti_inst x = i -> ti_task x = tk -> dw_wd c0 l (ti_wd x) -> evaluates E s t x r s1 -> ti_status x <> TWaiting ->
      dw_ok c0 l (mk_round s (happened s s1) r) /\
      exists x1, s_tis s1 !! t = Some x1 /\ dw_wd c0 (l ++ [mk_round s (happened s s1) r]) (ti_wd x1).
    Proof.
      intros R Hi Ht Hw Ev Hnw. assert (Hx := proj1 (proj2 Ev)). assert (Hs := proj1 (proj2 (proj2 Ev))).
      assert (exists x1, s_tis s1 !! t = Some x1) as [x1 Hx1].
      { destruct (evaluates_quiet _ _ _ _ _ _ _ _ R Ev) as (?&?&?&?&x1&?&?&?&?&?&?&?&?&?&Hx1&?). by exists x1. }
      assert (Forall repeats l -> exists c k w lg, used c0 c /\ k = Z.of_nat (length l) /\ dw_round E t i tk k c r s1 (marks (rev lg)) /\
        happened s s1 = EvQDel w (ti_inst x) (t_id (ti_task x)) :: rev lg) as H.
      { intros F. destruct (Hw F) as [(c & B & Hu) Hk].
        destruct (evaluates_tr s t x r s1 (fun o s' lg => match o with Ok r => dw_round E t i tk (Z.of_nat (length l)) c r s' lg | _ => True end) R Ev) as (w & lg & H & Hh & _).
        { intros w q Hq. rewrite bool_decide_false by done. rewrite Ht, Hty, Hi. cbn [beh_eval].
          eapply tr_mono; [apply (dw_eval_spec E t i tk (Z.of_nat (length l)) _ c (ti_wd x))|intros [] ? ?; done].
          - unfold wd_of. change (s_tis (popped w t x q s)) with (s_tis s). by rewrite Hx.
          - destruct l; [by left|by right].
          - exists (ti_wd x). split; [|done]. unfold wd_of. change (s_tis (popped w t x q s)) with (s_tis s). by rewrite Hx.
          - intros x'. change (s_tis (popped w t x q s)) with (s_tis s). rewrite Hx. by intros [= <-]. }
        exists c, (Z.of_nat (length l)), w, lg. done. }
      split.
      - intros F. destruct (H F) as (c & k & w & lg & Hu & -> & (ps & c' & r0 & cl & Hl & _ & _ & _ & Hsm & Hr0) & Hh).
        cbn [rd_events rd_result]. rewrite Hh.
        change (EvQDel w (ti_inst x) (t_id (ti_task x)) :: rev lg) with ([EvQDel w (ti_inst x) (t_id (ti_task x))] ++ rev lg).
        rewrite calls_app, outcomes_app, conditions_app. cbn [calls outcomes conditions omap list_omap app].
        rewrite <- (calls_marks i id (rev lg)), <- (outcomes_marks i id (rev lg)), <- (conditions_marks i id (rev lg)), Hl.
        rewrite calls_app, outcomes_app, conditions_app, calls_pairs, outcomes_pairs, conditions_pairs.
        assert (calls i id cl = [] /\ outcomes i id cl = []) as [-> ->].
        { destruct r0 as [e|[]]; [by destruct Hr0 as [-> _]| |by destruct Hr0 as [-> _]]. destruct Hr0 as [_ Hr0].
          destruct (t_loop tk ≫= lc_cond); [destruct Hr0 as [[-> _]|(b & -> & _)]; done|by destruct Hr0 as [-> _]]. }
        rewrite !app_nil_r. cbn [app]. split_and!.
        + by intros ca (? & -> & _)%elem_of_list_fmap.
        + by rewrite fmap_length, map_length.
        + destruct r0 as [e|[]]; [by destruct Hr0 as (-> & -> & _)| |by destruct Hr0 as (-> & -> & _)]. destruct Hr0 as [_ Hr0].
          destruct (t_loop tk ≫= lc_cond); [|destruct Hr0 as (-> & ->); by right].
          destruct Hr0 as [(-> & e & ->)|(b & -> & ->)]; [done|]. destruct b; cbn; rewrite bool_decide_true by done; [done|by left].
        + intros Sm. exists c, r0. split_and!; [done|by apply Hsm|].
          destruct r0 as [e|[]]; [by destruct Hr0 as (_ & -> & _)| |by destruct Hr0 as (_ & -> & _)]. destruct Hr0 as [_ Hr0].
          destruct (t_loop tk ≫= lc_cond); [|destruct Hr0 as (_ & ->); auto].
          destruct Hr0 as [(_ & e & ->)|(b & _ & ->)]; [eauto|]. destruct b; auto.
      - exists x1. split; [done|]. intros [F Fr]%Forall_app. apply Forall_inv in Fr. unfold repeats in Fr. cbn in Fr. subst r.
        destruct (H F) as (c & k & w & lg & Hu & -> & (ps & c' & r0 & cl & Hl & B' & Hu' & _ & _ & Hr0) & Hh).
        destruct B' as (w' & Hw' & B'). unfold wd_of in Hw'. rewrite Hx1 in Hw'. injection Hw' as <-. split.
        + exists c'. split; [done|]. unfold used in *. lia.
        + assert (iter_of t s1 = Some (WDoWhile (Z.of_nat (length l) + 1))) as Hit.
          { destruct r0 as [e|[]]; [by destruct Hr0 as (_ & ? & _)| |by destruct Hr0 as (_ & ? & _)]. by destruct Hr0 as [? _]. }
          unfold iter_of, wd_of in Hit. rewrite Hx1 in Hit. cbn in Hit. rewrite Hit.
          destruct (l ++ _) eqn:Hla; [by destruct l|]. rewrite <- Hla, app_length. cbn [length]. do 2 f_equal. lia.
    Qed.

    Lemma dowhile_rounds c s0 x0 l s :
      running E d uri s0 -> s_tis s0 !! t = Some x0 -> ti_inst x0 = i -> ti_task x0 = tk -> ti_wd x0 !! "iteration" = None ->
      retries_left tk (ti_wd x0) c -> rounds E t s0 l s ->
      forall k r, l !! k = Some r -> dw_ok c (take k l) r.
    Proof.
      intros R0 Hx0 Hi0 Ht0 Hn B Hr.
      destruct (rounds_inv t i tk (dw_wd c) (fun k s => True) (dw_ok c) s0 x0) with (l := l) (s := s) as [_ H]; try done.
      - split; [|done]. exists c. split; [done|]. unfold used. lia.
      - intros l' s' x r s1 R Hx Hi Ht Hw Ev Hnw _. by apply (dw_step_ok c l' s' x r s1).
    Qed.

    (** Without retries: one call for each round. *)
    Lemma dowhile_calls s0 x0 l r s :
      running E d uri s0 -> s_tis s0 !! t = Some x0 -> ti_inst x0 = i -> ti_task x0 = tk -> ti_wd x0 !! "iteration" = None ->
      t_retry tk = None -> smooth E tk -> rounds E t s0 (l ++ [r]) s -> Forall repeats l ->
      flat_map (fun r => snd <$> calls i id (rd_events r)) (l ++ [r]) = (fun k => Some (WDoWhile k)) <$> seqZ 0 (Z.of_nat (length l) + 1) /\
      flat_map (fun r => conditions i id (rd_events r)) l = (fun k => (Some (WDoWhile k), VBool true)) <$> seqZ 0 (Z.of_nat (length l)) /\
      match rd_result r with
      | inr EvalRepeat => conditions i id (rd_events r) = [(Some (WDoWhile (Z.of_nat (length l))), VBool true)]
      | inr EvalDone => conditions i id (rd_events r) = [(Some (WDoWhile (Z.of_nat (length l))), VBool false)] \/
          (conditions i id (rd_events r) = [] /\ forall lc, t_loop tk = Some lc -> lc_cond lc = None)
      | _ => conditions i id (rd_events r) = []
      end.
    Proof.
      intros R0 Hx0 Hi0 Ht0 Hn Hrt Sm Hr F.
      assert (forall k r', (l ++ [r]) !! k = Some r' -> dw_ok 0 (take k (l ++ [r])) r') as H.
      { apply (dowhile_rounds 0 s0 x0 _ s); try done. unfold retries_left. by rewrite Hrt. }
      assert (forall c os r0, retried c os r0 -> c <= 0 -> exists o, os = [o]) as Hre.
      { intros c os r0 Hret Hc. destruct Hret; [by exists None|by exists (Some e)|lia]. }
      assert (forall k r', (l ++ [r]) !! k = Some r' -> Forall repeats (take k (l ++ [r])) ->
        snd <$> calls i id (rd_events r') = [Some (WDoWhile (Z.of_nat k))]) as Hc.
      { intros k r' Hk Fk. destruct (H k r' Hk Fk) as (Hca & Hlen & _ & Hs). destruct (Hs Sm) as (c & r0 & Hu & Hret & _).
        destruct (Hre _ _ _ Hret) as (o & Ho); [unfold used in Hu; lia|]. rewrite Ho in Hlen.
        destruct (calls i id (rd_events r')) as [|ca [|]]; try done. cbn. f_equal. rewrite (Hca ca) by (by left).
        do 2 f_equal. apply lookup_lt_Some in Hk. by rewrite take_length, Nat.min_l by lia. }
      assert (forall A (f : round -> list A) (g : Z -> A) l, (forall k r, l !! k = Some r -> f r = [g (Z.of_nat k)]) ->
        flat_map f l = g <$> seqZ 0 (Z.of_nat (length l))) as Hgen.
      { clear. intros A f g l. induction l as [|r l IH] using rev_ind; intros H; [done|].
        rewrite flat_map_app, app_length, Nat2Z.inj_add. cbn [length]. rewrite seqZ_app by lia. rewrite fmap_app. f_equal.
        - apply IH. intros k r' Hk. apply H. by apply lookup_app_l_Some.
        - cbn [flat_map]. rewrite app_nil_r, (H (length l) r) by (by apply list_lookup_middle). done. }
      assert (forall k, (k <= length l)%nat -> Forall repeats (take k (l ++ [r]))) as Fk.
      { intros k Hk. rewrite take_app_le by done. by apply Forall_take. }
      split_and!.
      - rewrite (Hgen _ _ (fun k => Some (WDoWhile k))).
        + by rewrite app_length, Nat2Z.inj_add.
        + intros k r' Hk. apply Hc; [done|]. apply Fk. apply lookup_lt_Some in Hk. rewrite app_length in Hk. cbn in Hk. lia.
      - apply (Hgen _ _ (fun k => (Some (WDoWhile k), VBool true))). intros k r' Hk.
        assert (Hlt := lookup_lt_Some _ _ _ Hk). destruct (H k r') as (_ & _ & Hcond & _); [by apply lookup_app_l_Some|apply Fk; lia|].
        rewrite Forall_lookup in F. specialize (F k r' Hk). unfold repeats in F. rewrite F in Hcond. rewrite Hcond.
        by rewrite take_length, app_length, Nat.min_l by lia.
      - destruct (H (length l) r) as (_ & _ & Hcond & _); [by apply list_lookup_middle|by apply Fk|].
        rewrite take_app in Hcond. destruct (rd_result r) as [e|[]]; try done.
        destruct Hcond as [?|[? Hlc]]; [by left|right]. split; [done|]. intros lc Hlc'. by rewrite Hlc' in Hlc.
    Qed.
  End DoWhile.

  (** A task that goes on is queued again. *)
  Lemma repeat_queued s t x s1 :
    running E d uri s -> evaluates E s t x (inr EvalRepeat) s1 ->
    main_status (do_step E s).2 = Some FActive /\ exists q w, s_queue (do_step E s).2 = q ++ [(w, t)].
  Proof.
    intros R Ev. destruct (evaluates_quiet _ _ _ _ _ _ _ _ R Ev) as (w & q & y & y1 & x1 & Hq & Hy & Ha & Hd & _ & _ & _ & Hy1 & SF & Hx1 & _).
    rewrite (evaluates_step _ _ _ _ _ _ Ev). cbn [conclude].
    assert (exists e1 e2, catch (track_task t ;; schedule_eval t) (exec_recover E t) s1 =
      (Ok tt, p_log e2 (set_s_queue (s_queue s1 ++ [(S (s_wictr s1), t)]) (set_s_wictr (S (s_wictr s1)) (p_log e1 s1))))) as (e1 & e2 & ->).
    { unfold catch, track_task, schedule_eval, bind, get_ti, bind, get, log_ev, modify. rewrite Hx1. unfold ret.
      change (s_tis (set_s_log (EvTaskTrk (ti_inst x1) (t_id (ti_task x1)) (ti_status x1) :: s_log s1) s1)) with (s_tis s1). rewrite Hx1.
      eexists _, _. reflexivity. }
    destruct SF as (_ & _ & Ss & _). split.
    - unfold main_status. change (i_status <$> s_insts s1 !! 0%nat = Some FActive). rewrite Hy1. cbn. by rewrite Ss, Ha.
    - cbn. eauto.
  Qed.
End Rounds.

(** The statements in Props_Tasks.v. *)
Lemma iterator_visits_all E d uri s0 t x lc v l s :
  running E d uri s0 -> s_tis s0 !! t = Some x -> ti_wd x !! "_iterator" = None ->
  t_type (ti_task x) = TIterator -> t_loop (ti_task x) = Some lc -> iterable E v ->
  t_retry (ti_task x) = None -> smooth E (ti_task x) ->
  rounds E t s0 l s ->
  (forall r, l !! 0%nat = Some r -> iterates E t (rd_from r) lc v) ->
  flat_map (fun r => snd <$> calls (ti_inst x) (t_id (ti_task x)) (rd_events r)) l =
    take (length l) (imap (fun k p => Some (WIteration p.1 p.2 (Z.of_nat k))) (elements_of E v)) /\
  (forall k r, l !! k = Some r ->
     match rd_result r with
     | inr EvalDone => (length (elements_of E v) <= k)%nat
     | inl e => outcomes (ti_inst x) (t_id (ti_task x)) (rd_events r) = [Some e]
     | inr EvalRepeat | inr EvalWait =>
         (k < length (elements_of E v))%nat /\ outcomes (ti_inst x) (t_id (ti_task x)) (rd_events r) = [None]
     | inr _ => False
     end).
Proof.
  intros R Hx Hn Hty Hlc Hv Hrt Sm Hr Hf.
  destruct (iterator_visits E d uri t (ti_inst x) (ti_task x) lc v Hty Hlc Hv s0 x l s) as [H1 H2]; try done.
Qed.
Lemma iterator_calls E d uri s0 t x lc v c l s :
  running E d uri s0 -> s_tis s0 !! t = Some x -> ti_wd x !! "_iterator" = None ->
  t_type (ti_task x) = TIterator -> t_loop (ti_task x) = Some lc -> iterable E v ->
  retries_left (ti_task x) (ti_wd x) c ->
  rounds E t s0 l s ->
  (forall r, l !! 0%nat = Some r -> iterates E t (rd_from r) lc v) ->
  forall k r, l !! k = Some r ->
    match elements_of E v !! k with
    | Some p => forall ca, ca ∈ calls (ti_inst x) (t_id (ti_task x)) (rd_events r) -> ca.2 = Some (WIteration p.1 p.2 (Z.of_nat k))
    | None => calls (ti_inst x) (t_id (ti_task x)) (rd_events r) = [] /\ rd_result r = inr EvalDone
    end.
Proof.
  intros R Hx Hn Hty Hlc Hv Hrt Hr Hf k r Hk.
  pose proof (iterator_rounds E d uri t (ti_inst x) (ti_task x) lc v Hty Hlc Hv c s0 x l s R Hx eq_refl eq_refl Hn Hrt Hr Hf k r Hk) as H.
  unfold iter_ok in H. destruct (elements_of E v !! k); [by destruct H|done].
Qed.
Lemma dowhile_all E d uri s0 t x l r s :
  running E d uri s0 -> s_tis s0 !! t = Some x -> ti_wd x !! "iteration" = None ->
  t_type (ti_task x) = TDoWhile -> t_retry (ti_task x) = None -> smooth E (ti_task x) ->
  rounds E t s0 (l ++ [r]) s -> (forall r', r' ∈ l -> rd_result r' = inr EvalRepeat) ->
  let i := ti_inst x in let id := t_id (ti_task x) in let n := Z.of_nat (length l) in
  flat_map (fun r => snd <$> calls i id (rd_events r)) (l ++ [r]) = (fun k => Some (WDoWhile k)) <$> seqZ 0 (n + 1) /\
  flat_map (fun r => conditions i id (rd_events r)) l = (fun k => (Some (WDoWhile k), VBool true)) <$> seqZ 0 n /\
  match rd_result r with
  | inr EvalRepeat => conditions i id (rd_events r) = [(Some (WDoWhile n), VBool true)]
  | inr EvalDone =>
      conditions i id (rd_events r) = [(Some (WDoWhile n), VBool false)] \/
      (conditions i id (rd_events r) = [] /\ forall lc, t_loop (ti_task x) = Some lc -> lc_cond lc = None)
  | _ => conditions i id (rd_events r) = []
  end.
Proof.
  intros R Hx Hn Hty Hrt Sm Hr F. cbv zeta.
  apply (dowhile_calls E d uri t (ti_inst x) (ti_task x) Hty s0 x l r s); try done. by apply Forall_forall.
Qed.
Lemma retried_counts c os r : retried c os r ->
  exists bad o, os = bad ++ [o] /\ (forall e, Some e ∈ bad -> retriable e = true) /\ (None ∉ bad) /\
    Z.of_nat (length bad) <= Z.max 0 c /\
    match o with
    | Some e => r = inl e /\ (retriable e = true -> Z.of_nat (length bad) = Z.max 0 c)
    | None => exists b, r = inr b
    end.
Proof.
  induction 1 as [c b|c e He|c e os r He Hc Hr (bad & o & -> & H1 & H2 & H3 & H4)].
  - exists [], None. split_and!; [done|by intros e ?%elem_of_nil|apply not_elem_of_nil|cbn; lia|eauto].
  - exists [], (Some e). split_and!; [done|by intros e' ?%elem_of_nil|apply not_elem_of_nil|cbn; lia|done|].
    intros Hre. specialize (He Hre). cbn. lia.
  - exists (Some e :: bad), o. split_and!; [done| | |cbn [length]; lia|].
    + intros e' [[= ->]|?]%elem_of_cons; auto.
    + by intros [?|?]%elem_of_cons.
    + destruct o; [|done]. destruct H4 as [-> H4]. split; [done|]. intros Hre. specialize (H4 Hre). cbn [length]. lia.
Qed.
