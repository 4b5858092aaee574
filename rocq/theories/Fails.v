(** Errors of link expressions and errors of subflows: proofs for Props_Subflow. No Go counterpart. *)
From Verif Require Export Errors SpecSub.
Local Open Scope Z_scope.

Section Broken.
  Local Set Default Proof Using "Type*".
  Context (E : env) (C : cov_ok E).

  Lemma loc_done_fails i t ls a y x :
    ti_inst x = i -> (exists l, l ∈ ls /\ broken E l) ->
    loc i t (done_links E t i ls a) y x (fun r y' x' _ => x' = x /\ (exists m, y' = set_i_links m y) /\
      exists l e n v, l ∈ ls /\ l_type l = LtExpression /\ e_link E n v l = XErr e /\ r = inl (link_error l e)).
  Proof.
    revert a y. induction ls as [|l ls IH]; intros a y Hi (l0 & Hl0 & Hb); [by apply elem_of_nil in Hl0|].
    cbn [done_links]. unfold done_link at 1. apply loc_bind, loc_bind, (loc_set_link E i t C). intros ev0 _.
    assert (forall a' y1, (exists m, y1 = set_i_links m y) -> l0 <> l ->
      loc i t (done_links E t i ls a') y1 x (fun r y' x' _ => x' = x /\ (exists m, y' = set_i_links m y) /\
      exists l1 e n v, l1 ∈ l :: ls /\ l_type l1 = LtExpression /\ e_link E n v l1 = XErr e /\ r = inl (link_error l1 e))) as Hgo.
    { intros a' y1 [m ->] Hne. eapply loc_mono; [apply (IH a' (set_i_links m y) Hi)|].
      - exists l0. split; [|done]. apply elem_of_cons in Hl0 as [|]; done.
      - intros r y' x' _ (-> & [m' ->] & l1 & e & n & v & H1 & H2 & H3 & H4). split_and!; [done|by exists m'|].
        exists l1, e, n, v. split_and!; try done. by apply elem_of_list_further. }
    assert (l_type l <> LtExpression -> l0 <> l) as Hty by (intros H ->; by destruct Hb).
    destruct (l_type l) eqn:Ht.
    - apply loc_bind, (loc_set_link E i t C). intros ev1 _. apply loc_ret. eapply loc_mono; [apply Hgo; [by eexists|by apply Hty]|]. done.
    - apply loc_bind. unfold eval_link. apply loc_bti. destruct (l_expr l) as [src|] eqn:Hx.
      + apply loc_bind, loc_ext. intros n v. destruct (e_link E n v l) as [b|e|msg] eqn:He.
        * apply loc_bind, loc_log, loc_ret.
          assert (l0 <> l) as Hne by (intros ->; destruct Hb as (_ & _ & Hb); destruct (Hb n v); congruence).
          destruct b.
          -- apply loc_bind, (loc_set_link E i t C). intros ev1 _. apply loc_ret. eapply loc_mono; [apply Hgo; [by eexists|done]|]. done.
          -- apply loc_ret. eapply loc_mono; [apply Hgo; [by eexists|done]|]. done.
        * apply loc_bind, loc_log, loc_ret, loc_ret, loc_ret. split_and!; [done|by eexists|].
          exists l, e, n, v. split_and!; try done. apply elem_of_list_here.
        * apply loc_bind, loc_log, loc_ret.
          assert (l0 <> l) as Hne by (intros ->; destruct Hb as (_ & _ & Hb); destruct (Hb n v); congruence).
          apply loc_ret. eapply loc_mono; [apply Hgo; [by eexists|done]|]. done.
      + assert (l0 <> l) as Hne by (intros ->; by destruct Hb as (_ & Hb & _)).
        apply loc_bind, loc_log, loc_ret, loc_bind, (loc_set_link E i t C). intros ev1 _. apply loc_ret.
        eapply loc_mono; [apply Hgo; [by eexists|done]|]. done.
    - apply loc_bind, (loc_set_link E i t C). intros ev1 _. apply loc_ret. eapply loc_mono; [apply Hgo; [by eexists|by apply Hty]|]. done.
    - apply loc_ret. eapply loc_mono; [apply Hgo; [by eexists|by apply Hty]|]. done.
    - apply loc_ret. eapply loc_mono; [apply Hgo; [by eexists|by apply Hty]|]. done.
  Qed.
End Broken.

Lemma pending_tis s s' : s_queue s' = s_queue s ->
  (forall u x, s_tis s !! u = Some x -> exists x', s_tis s' !! u = Some x' /\ ti_inst x' = ti_inst x /\ ti_task x' = ti_task x) ->
  (forall w u, (w, u) ∈ s_queue s -> is_Some (s_tis s !! u)) -> pending s' = pending s.
Proof.
  intros Hq Ht Hk. unfold pending. rewrite Hq. revert Hk. generalize (s_queue s). clear Hq. intros q Hk.
  induction q as [|[w u] q IH]; [done|]. cbn [omap list_omap fst snd].
  destruct (Hk w u) as [x Hx]; [apply elem_of_list_here|]. destruct (Ht u x Hx) as (x' & Hx' & Hi & Htk).
  rewrite Hx, Hx'. cbn. rewrite Hi, Htk. f_equal. apply IH. intros w' u' H. apply (Hk w' u'). by apply elem_of_list_further.
Qed.

Lemma text_assoc (a b c : string) : a +:+ (b +:+ c) = (a +:+ b) +:+ c.
Proof. induction a as [|x a IH]; [done|]. exact (f_equal (String x) IH). Qed.

Section Link_error.
  Local Set Default Proof Using "Type*".
  Context (E : env) (d : defn) (uri : string) (C : cov_ok E).

  (** An error of an expression is passed on. *)
  Lemma tot_done_error ent i t y x s Q :
    s_insts s !! i = Some y -> s_tis s !! t = Some x -> ti_status x <> TSkipped -> ti_inst x = i -> is_Some (s_insts s !! 0%nat) ->
    (exists l, l ∈ t_to (ti_task x) /\ broken E l) ->
    (forall e m l n, expression_error E (t_to (ti_task x)) e ->
      tot (append_error_data E t e ;; handle_global_error E ent i e) (put i t (set_i_links m y) (set_ti_status TDone x) l n s) Q) ->
    tot (handle_task_done E ent t) s Q.
  Proof.
    intros Hy Hx Hs Hi Hm0 Hb HQ. unfold handle_task_done. eapply tot_bti; [done|]. cbv zeta. rewrite bool_decide_false by done.
    rewrite Hi. eapply tot_loc; [done|done|]. apply loc_bind. unfold beh_done. apply loc_bind, loc_to_links; [done|]. intros ev _.
    apply loc_bind, loc_set_task_status, loc_bti. cbv zeta. cbn [ti_inst set_ti_status]. rewrite Hi.
    destruct (t_to (ti_task x)) as [|l0 ls0] eqn:Hto; [destruct Hb as (? & Hb%elem_of_nil & _); done|]. rewrite <- Hto in Hb, HQ |- *.
    apply loc_bind. eapply loc_mono; [by apply (loc_done_fails E C)|].
    intros r y' x' ev' (-> & [m ->] & l & e & n & v & Hl & Hty & He & ->). apply loc_ret.
    apply loc_bind, loc_coverage; [done..|]. intros ls ev1 _ _. apply loc_ret. intros n1.
    set (s2 := put _ _ _ _ _ _ _). assert (is_Some (s_insts s2 !! 0%nat)) as [y0 Hy0].
    { unfold s2, put. cbn. destruct (decide (i = 0%nat)) as [->|]; [by rewrite lookup_insert|by rewrite lookup_insert_ne]. }
    eapply tot_binst; [exact Hy0|]. cbv zeta.
    unfold s2. match goal with |- tot (append_error_data E t ?e' ;; _) (put i t ?y' ?x' ?l ?n s) Q => apply (HQ e' (i_links y')) end.
    exists l, n, v, e. eexists. split_and!; [done..|]. unfold done_error. f_equal. cbn [err_text link_error]. rewrite !text_assoc. reflexivity.
  Qed.

  Lemma main_fails ent t e s y x :
    s_insts s !! 0%nat = Some y -> s_tis s !! t = Some x -> ti_inst x = 0%nat -> i_handling y = false -> d_eh (i_def y) = None ->
    tot (append_error_data E t e ;; handle_global_error E ent 0 e) s (fun _ s' =>
      exists y' l n, i_status y' = FFailed /\ i_rerr y' = Some e /\ s' = put 0 t y' x l n s).
  Proof.
    intros Hy Hx Hi Hh Hd. eapply tot_mono.
    { eapply (loc_run 0 t _ y x s (fun _ y' x' _ => i_status y' = FFailed /\ i_rerr y' = Some e /\ x' = x)); [|done|done].
      apply loc_bind, loc_append_error; [done..|]. intros m1 m2 _ _. unfold handle_global_error. apply loc_binst.
      cbn [set_i_attrs i_handling i_def]. rewrite Hh, Hd.
      apply loc_bind, loc_upd_inst, loc_bind, loc_set_flow_status. cbn [Nat.eqb]. apply loc_upd_inst.
      cbn [set_i_rerr i_status i_rerr]. split_and!; [|done|done].
      match goal with |- i_status (posted E FFailed ?y0) = _ => exact (proj1 (proj2 (proj2 (posted_fields E FFailed y0)))) end. }
    intros [] s' (y' & x' & l & n & -> & H1 & H2 & ->). eauto 10.
  Qed.

  Lemma main_handled t e s y x h :
    s_insts s !! 0%nat = Some y -> s_tis s !! t = Some x -> (t < s_nti s)%nat -> ti_inst x = 0%nat -> settings_ok E -> e_conc E = false ->
    i_handling y = false -> d_eh (i_def y) = Some h -> NoDup (t_id <$> start_tasks (eh_tasks h)) ->
    (forall tk, tk ∈ start_tasks (eh_tasks h) -> t_act tk <> None) ->
    tot (append_error_data E t e ;; handle_global_error E (enter_top E) 0 e) s (fun _ s' => begins_handler h t e s y x s').
  Proof.
    intros Hy Hx Ht Hi SO NC Hh Hd N Ha.
    eapply tot_loc; [done|done|]. apply loc_append_error; [done..|]. intros m1 m2 -> -> n4.
    unfold handle_global_error.
    eapply tot_binst; [apply put_inst|]. cbn [set_i_attrs i_handling i_def]. rewrite Hh, Hd.
    eapply tot_loc; [apply put_inst|apply put_ti|]. apply loc_upd_inst. intros n5. rewrite put_put.
    eapply tot_loc; [apply put_inst|apply put_ti|]. unfold clear_tasks. apply loc_binst, loc_bind, loc_upd_inst, loc_log. intros n6. rewrite put_put.
    set (y2 := set_i_tasks ∅ _). set (s2 := put _ _ _ _ _ _ s).
    unfold enter_top. apply tot_bind. eapply tot_binst; [apply put_inst|]. cbn [enter_tasks]. unfold with_lock. rewrite NC.
    eapply tot_mono.
    { apply (enter_starts E NC SO _ 0 (start_tasks (eh_tasks h)) s2 y2); [apply put_inst| |done].
      intros tk Htk. split_and!; [|by apply Ha|done].
      unfold start_tasks in Htk. apply elem_of_list_In, List.filter_In in Htk as [_ Htk]. destruct (t_from tk); done. }
    intros r s' [-> St]. apply tot_ret. exists s2, y2, x. split_and!; try done.
    all: unfold y2; cbn [i_attrs i_handling i_status set_i_tasks set_i_handling set_i_attrs].
    - rewrite lookup_union_r by (by rewrite lookup_singleton_ne). apply lookup_union_Some_l, lookup_singleton.
    - apply lookup_union_Some_l, lookup_singleton.
  Qed.

  Lemma evaluates_unskipped s t x r s1 x1 :
    evaluates E s t x r s1 -> okq s -> s_tis s1 !! t = Some x1 -> ti_status x1 <> TSkipped.
  Proof.
    intros (_ & Hx & Hs & _ & w & q & Hq & Hr) Ho Hx1. change (set_s_log _ _) with (popped w t x q s) in Hr.
    assert (ti_is (popped w t x q s) t (ti_inst x) (ti_task x)) as Hti by (exists x; done).
    assert (okq (popped w t x q s)) as Ho1 by exact Ho.
    assert (unskipped t (popped w t x q s) s1) as U.
    { change s1 with (Ok r, s1).2. rewrite <- Hr. case_bool_decide.
      - by apply (rq_beh_post E t _ _ _ (unskipped_leaves E t (ti_inst x) _)).
      - by apply (rq_beh_eval E t _ _ _ (unskipped_leaves E t (ti_inst x) _)). }
    destruct (U x Hx Hs) as (x1' & Hx1' & Hn). congruence.
  Qed.

  (** What is needed about a finished evaluation of a task of the main flow. *)
  Lemma finished_main s t x s1 :
    running E d uri s -> evaluates E s t x (inr EvalDone) s1 -> ti_inst x = 0%nat ->
    exists y y1 x1, s_insts s !! 0%nat = Some y /\ s_insts s1 !! 0%nat = Some y1 /\ i_handling y1 = i_handling y /\
      (i_handling y = true -> d_eh d <> None) /\ i_status y1 = FActive /\ i_def y1 = d /\
      s_tis s1 !! t = Some x1 /\ ti_inst x1 = 0%nat /\ ti_task x1 = ti_task x /\ ti_status x1 <> TSkipped.
  Proof.
    intros R Ev Hi.
    pose proof (evaluates_quiet _ _ _ _ _ _ _ _ R Ev) as (w & q & y & y1 & x1 & Hq & Hy & Hact' & Hdef & _ & Ho & So & Hy1 & SF & Hx1 & Hi1 & Ht1).
    destruct SF as (_ & Sh & Ss & Sd & _). exists y, y1, x1. split_and!; try done; try congruence.
    - intros Hh Hd. destruct (So y Hy); [by cbn; rewrite Hdef|]. cbn in *. destruct H; [congruence|]. by rewrite Hact' in *.
    - eapply evaluates_unskipped; [done|exact Ho|done].
  Qed.

  Lemma expression_fails s t x s1 :
    running E d uri s -> d_eh d = None -> evaluates E s t x (inr EvalDone) s1 -> ti_inst x = 0%nat ->
    (exists l, l ∈ t_to (ti_task x) /\ broken E l) ->
    (exists y e, s_insts (do_step E s).2 !! 0%nat = Some y /\ i_status y = FFailed /\ i_rerr y = Some e /\
       expression_error E (t_to (ti_task x)) e) /\
    pending (do_step E s).2 = pending s1 /\ (forall n, evaluations (after E n (do_step E s).2) = evaluations s1).
  Proof.
    intros R Hd Ev Hi Hb. pose proof (evaluates_reach E d uri _ _ _ _ _ R Ev) as R1.
    destruct (finished_main s t x s1 R Ev Hi) as (y & y1 & x1 & Hy & Hy1 & Hh & Hhd & Ha & Hd1 & Hx1 & Hi1 & Ht1 & Hs1).
    assert (i_handling y1 = false) as Hh1.
    { rewrite Hh. destruct (i_handling y); [|done]. by destruct (Hhd eq_refl). }
    assert ((exists y e, s_insts (do_step E s).2 !! 0%nat = Some y /\ i_status y = FFailed /\ i_rerr y = Some e /\
       expression_error E (t_to (ti_task x)) e) /\ pending (do_step E s).2 = pending s1) as [H Hp].
    { assert (tot (handle_task_done E (enter_top E) t) s1 (fun _ s' => (exists y e, s_insts s' !! 0%nat = Some y /\ i_status y = FFailed /\
          i_rerr y = Some e /\ expression_error E (t_to (ti_task x)) e) /\ pending s' = pending s1)) as Hto.
      { eapply tot_done_error; [exact Hy1|exact Hx1|done|done|by eauto|by rewrite Ht1|]. intros e m l n He.
        eapply tot_mono.
        - eapply main_fails; [apply put_inst|apply put_ti|exact Hi1|exact Hh1|]. cbn. by rewrite Hd1.
        - intros [] s' (y' & l' & n' & A1 & A2 & ->). rewrite put_put. split.
          + exists y', e. rewrite put_inst. split_and!; try done. by rewrite <- Ht1.
          + apply pending_tis; [done| |].
            * intros u z Hu. destruct (decide (u = t)) as [->|Hne].
              -- rewrite put_ti. eexists. split; [done|]. rewrite Hx1 in Hu. by injection Hu as <-.
              -- rewrite put_ti_ne by done. eauto.
            * intros w u Hwu. destruct (inv_rdy _ _ _ _ _ R1) as (_ & I & _). specialize (I w u Hwu). destruct I as (? & ? & (z & Hz & _) & _). eauto. }
      rewrite (evaluates_step _ _ _ _ _ _ Ev). cbn [conclude]. unfold task_done.
      by destruct (tot_run _ _ _ (tot_catch _ (exec_recover E t) _ _ Hto)) as (a & _ & H). }
    split_and!; [done|done|]. intros n. destruct H as (y' & e & Hy' & Hs' & _).
    rewrite (ended_stays E n _ FFailed); [|unfold main_status; by rewrite Hy', <- Hs'|done].
    change (evaluations (do_step E s).2 = evaluations s1). by eapply step_evaluations.
  Qed.

  Lemma expression_handled s t x s1 h :
    running E d uri s -> built d -> settings_ok E -> e_conc E = false -> d_eh d = Some h ->
    (forall tk, tk ∈ start_tasks (eh_tasks h) -> t_act tk <> None) ->
    evaluates E s t x (inr EvalDone) s1 -> ti_inst x = 0%nat ->
    (exists l, l ∈ t_to (ti_task x) /\ broken E l) ->
    (forall y, s_insts s !! 0%nat = Some y -> i_handling y = false) ->
    exists e, expression_error E (t_to (ti_task x)) e /\ taken_over h x e s1 (do_step E s).2.
  Proof.
    intros R B SO NC Heh Hact Ev Hi Hb Hhd. pose proof (evaluates_reach E d uri _ _ _ _ _ R Ev) as R1.
    destruct (finished_main s t x s1 R Ev Hi) as (y & y1 & x1 & Hy & Hy1 & Hh & _ & Ha & Hd1 & Hx1 & Hi1 & Ht1 & Hs1).
    assert (i_handling y1 = false) as Hh1 by (rewrite Hh; by apply Hhd).
    pose proof (reach_fresh _ _ _ _ _ R1) as (F1 & _).
    assert (t < s_nti s1)%nat as Hlt.
    { destruct (decide (s_nti s1 <= t)%nat) as [Hle|]; [|lia]. by rewrite (F1 t Hle) in Hx1. }
    assert (tot (handle_task_done E (enter_top E) t) s1 (fun _ s' => exists e, expression_error E (t_to (ti_task x)) e /\ begins_handler h t e s1 y1 x1 s')) as Hto.
    { eapply tot_done_error; [exact Hy1|exact Hx1|done|done|by eauto|by rewrite Ht1|]. intros e m l n He.
      eapply tot_mono.
      - eapply (main_handled t e _ (set_i_links m y1) (set_ti_status TDone x1) h); [apply put_inst|apply put_ti|exact Hlt|exact Hi1|done|done|exact Hh1|cbn; congruence|by eapply handler_starts|done].
      - intros [] s' (s2 & y2 & x2 & O & S2 & H2 & T2 & A1 & A2 & X1 & X2 & Z1 & Z2 & Z3 & Z4 & Z5). exists e. split; [by rewrite <- Ht1|].
        exists s2, y2, x2. split_and!; try done.
        + rewrite Z1. unfold put. cbn. apply insert_insert.
        + rewrite Z2. unfold put. cbn. apply insert_insert. }
    rewrite (evaluates_step _ _ _ _ _ _ Ev). cbn [conclude]. unfold task_done.
    destruct (tot_run _ _ _ (tot_catch _ (exec_recover E t) _ _ Hto)) as (a & _ & e & He & H). exists e. split; [done|].
    eapply begins_taken; [exact R1|exact Hy1|exact Hx1|done|done|exact Ht1|exact H].
  Qed.
End Link_error.
