(** Whole steps preserve the invariant of Whole.v (proofs; no Go counterpart). *)
From Verif Require Export Rounds.
From Verif Require Export Plain.
Local Open Scope Z_scope.

Lemma evaluations_calls id l : (forall i j ins it, EvAct i j ins it ∈ l -> i = 0%nat /\ j = id) ->
  omap (fun e => match e with EvAct i j _ _ => Some (i, j) | _ => None end) l = (fun _ => (0%nat, id)) <$> calls 0 id l.
Proof.
  induction l as [|e l IH]; intros H; [done|].
  assert (forall i j ins it, EvAct i j ins it ∈ l -> i = 0%nat /\ j = id) as H' by (intros i j ins it He; apply (H i j ins it); by right).
  destruct e; cbn; try by apply IH. destruct (H i id0 ins it) as [-> ->]; [left|]. rewrite bool_decide_true by done. cbn. f_equal. by apply IH.
Qed.

Lemma bind_assoc {A B D} (m : M A) (f : A -> M B) (k : B -> M D) s : bind (bind m f) k s = bind m (fun a => bind (f a) k) s.
Proof. unfold bind. by destruct (m s) as [[] ?]. Qed.
Lemma bind_ext {A B} (m : M A) (k k' : A -> M B) s : (forall a s', k a s' = k' a s') -> bind m k s = bind m k' s.
Proof. intros H. unfold bind. destruct (m s) as [[] ?]; [apply H|done..]. Qed.

Section Onward.
  Context (d : defn) (sync : mode) (calls_ok : Prop).
  Notation inv := (inv d sync calls_ok).
  Notation told := (told d calls_ok).
  Context (G : graph_ok d) (AC : acyclic d) (NS : no_shortcut d) (PT : plain_tasks d).
  Context (E : env) (EH : no_takeover E d) (NC : e_conc E = false) (SO : settings_ok E) (C : cov_ok E) (L : links_ok E).
  Context (NSF : no_subflows E) (HS : sync -> sync_env false E) (HSR : sync -> returns_not sync) (HT : returns_not sync -> no_return E) (HC : calls_ok -> forall tk, tk ∈ d_tasks d -> smooth E tk).
  Local Set Default Proof Using "Type*".

  (** What is known when the evaluation of the first item of the queue is over. *)
  Record evaluated_inv (F : gmap string Z) (V : gmap nat Z) (t : nat) (tk : task) (x : tinst) (s : st) (r : err + eval_result) (s1 : st)
      (y1 : inst) (x1 : tinst) : Prop := {
    ei_ev : evaluates E s t x r s1;
    ei_tk : tk ∈ d_tasks d;
    ei_x : ti_task x = tk;
    ei_i : ti_inst x = 0%nat;
    ei_inv : inv (Some (t_id tk)) [] F V y1 s1;
    ei_reg : i_tasks y1 !! t_id tk = Some t;
    ei_x1 : s_tis s1 !! t = Some x1;
    ei_task : ti_task x1 = tk;
    ei_inst : ti_inst x1 = 0%nat;
    ei_status : ti_status x1 = TReady;
    ei_F : F !! t_id tk = None;
    ei_ready : ready F tk;
    ei_live : live V tk;
    ei_active : i_status y1 = FActive;
    ei_called : calls_ok -> (0%nat, t_id tk) ∈ evaluations s1;
    ei_fresh : forall z, ends z -> EvTaskUpd 0 (t_id tk) z ∉ s_log s1;
    ei_r : (exists e, r = inl e) \/ r = inr EvalDone \/ (r = inr EvalWait /\ ~ sync);
    ei_out : calls_ok -> (exists o, EvActEnd 0 (t_id tk) o ∈ s_log s1) /\
      forall o, EvActEnd 0 (t_id tk) o ∈ s_log s1 -> match r with inl _ => ended o = TFailed | inr _ => ended o = TDone end;
    ei_fails : smooth E tk -> (forall n v, v_task v = t_id tk -> act_sync true (e_act E n v)) -> forall e, r <> inl e
  }.

  Lemma head_evaluated F V y s w t q :
    inv None [] F V y s -> okq s -> i_status y = FActive -> s_queue s = (w, t) :: q ->
    exists tk x r s1 y1 x1, evaluated_inv F V t tk x s r s1 y1 x1.
  Proof.
    intros I Ok Ha Hq.
    destruct (iv_queue _ _ _ _ _ _ _ _ _ I w t) as (id & x & Hreg & HF & _ & Hx & Hst); [rewrite Hq; left|].
    destruct (iv_reg _ _ _ _ _ _ _ _ _ I id t Hreg) as (tk & x' & Htk & Hid & Hx' & Hxi & Hxt & _ & Hor).
    rewrite Hx in Hx'. injection Hx' as <-.
    destruct (Hor HF ltac:(done)) as [Hs0|(_ & Hrd & Hlive)]; [by rewrite Hst in Hs0|]. subst id.
    destruct (PT tk) as (Hty & Hnr & Hact); [by apply g_tasks|].
    pose proof (iv_y _ _ _ _ _ _ _ _ _ I) as Hy.
    set (p := popped w t x q s).
    assert (okq p) as Op by exact Ok.
    assert (ti_is p t 0 tk) as Tp by (exists x; done).
    assert (there t 0 tk p) as Th by (split; [done|by exists y]).
    assert (Acts.good t 0 tk p) as Gp by (split; [done|by exists y]).
    set (nofail := forall n v, v_task v = t_id tk -> act_sync true (e_act E n v)).
    destruct (rs_basic_eval E t 0 tk sync (returns_not sync) nofail NSF HS HT ltac:(done) Hnr p Th) as (_ & (Cq & Cn & Cf & Clg) & Hres).
    pose proof (eval_quiet E t 0 tk p) as Hqt. rewrite Hty in Hqt. cbn [beh_eval] in Hqt.
    assert (has_budget t tk p 0) as Hb.
    { exists (ti_wd x). split; [unfold wd_of; cbn; by rewrite Hx|]. unfold retries_left. by rewrite Hnr. }
    assert (forall x0, s_tis p !! t = Some x0 -> ti_status x0 <> TSkipped) as Hns.
    { intros x0. change (s_tis p) with (s_tis s). rewrite Hx. intros [= <-]. rewrite Hst. done. }
    destruct (basic_eval_spec E t 0 tk p 0 Hb Hns Gp) as (_ & l & Hl & Hsp).
    destruct (basic_eval E t p) as [o s1] eqn:Hev. cbn [fst snd] in *.
    destruct o as [r|?| |]; try done. destruct Hsp as (ps & c' & r0 & Hm & _ & Hu & Hlen & Hsm & ->).
    set (r := match r0 with inl e => inl e | inr true => inr EvalDone | inr false => inr EvalWait end) in *.
    destruct (Hqt Tp Op Op) as (O1 & _ & _ & Ins & Tis & Own & _ & _ & _ & (l' & Hl' & Fl)).
    rewrite Hl in Hl'. apply app_inv_tail in Hl'. subst l'.
    destruct (Ins 0%nat y Hy) as (y1 & Hy1 & _ & (_ & Sh & Ss & Sd & _ & Sts & Sls & _ & _)).
    destruct (Own x Hx) as (x1 & Hx1 & Hi1 & Ht1 & _ & _ & _ & Hs1). specialize (Hs1 Hty).
    assert (s_log s1 = l ++ EvQDel w (ti_inst x) (t_id (ti_task x)) :: s_log s) as Hlog by exact Hl.
    assert (forall e, e ∈ l -> frame_ev (s_sfctr p) 0 tk e) as Fl' by exact Fl.
    assert (evaluations s1 = evaluations s ++ ((fun _ => (0%nat, t_id tk)) <$> ps)) as Hevs.
    { unfold evaluations, trace. rewrite Hlog, rev_app_distr. cbn [rev]. rewrite <- app_assoc, !omap_app. f_equal. cbn [omap list_omap app].
      change (omap ?f (_ :: rev l)) with (omap f (rev l)). rewrite (evaluations_calls (t_id tk)).
      - rewrite <- (calls_marks 0 (t_id tk)), Hm, calls_pairs, <- list_fmap_compose. done.
      - intros i j ins it He. apply elem_of_list_In, in_rev, elem_of_list_In in He. specialize (Fl' _ He). by cbn in Fl'. }
    assert (Hendm : forall e, e ∈ pairs 0 tk (iter_of t p) ps -> e ∈ l).
    { intros e He. rewrite <- Hm in He. unfold marks in He. apply elem_of_list_In, filter_In in He as [He _]. apply in_rev in He. by apply elem_of_list_In. }
    assert (Hends : forall j o, EvActEnd 0 j o ∈ l -> EvActEnd 0 j o ∈ pairs 0 tk (iter_of t p) ps /\ t_id tk = j).
    { intros j o He. assert (EvActEnd 0 j o ∈ pairs 0 tk (iter_of t p) ps) as H.
      { rewrite <- Hm. unfold marks. apply elem_of_list_In, filter_In. split; [apply in_rev; rewrite rev_involutive; by apply elem_of_list_In|done]. }
      split; [done|]. apply elem_of_list_In, in_flat_map in H as (p0 & _ & [?|[[= ? ?]|[]]]); done. }
    assert ((length ps <= 1)%nat) as Hps by (unfold used in Hu; lia).
    assert (forall z, ends z -> EvTaskUpd 0 (t_id tk) z ∉ s_log s1) as Hfr.
    { intros z Hz He. rewrite Hlog in He. apply elem_of_app in He as [He|[He|He]%elem_of_cons]; [|done|].
      - specialize (Fl' _ He). cbn in Fl'. destruct Fl' as [?|(_ & _ & ?)]; [lia|done].
      - pose proof (to_upd _ _ _ _ _ _ _ (iv_told _ _ _ _ _ _ _ _ _ I) _ _ Hz ltac:(done) He). congruence. }
    assert ((0%nat, t_id tk) ∉ evaluations s) as Hnew.
    { intros H. destruct (to_eval _ _ _ _ _ _ _ (iv_told _ _ _ _ _ _ _ _ _ I) _ _ H) as (_ & [?|[?|[?|(_ & u & x2 & Hu2 & Hx2 & Hw)]]]); [done|congruence..|].
      assert (u = t) as -> by congruence. assert (x2 = x) as -> by congruence. by rewrite Hst in Hw. }
    assert (forall j u, i_tasks y !! j = Some u -> j <> t_id tk -> u <> t) as Hne.
    { intros j u Hj Hn ->. destruct (iv_reg _ _ _ _ _ _ _ _ _ I j t Hj) as (tk' & x' & _ & <- & Hx2 & _ & Ht2 & _). congruence. }
    exists tk, x, r, s1, y1, x1. split; try done.
    - split_and!; [unfold main_status; by rewrite Hy, <- Ha|done|rewrite Hst; done|rewrite Hst; done|]. exists w, q. split; [done|].
      rewrite bool_decide_false by (rewrite Hst; done). rewrite Hxt, Hty. cbn [beh_eval]. rewrite <- Hxt. exact Hev.
    - split.
      + done.
      + rewrite Sd. apply I.
      + rewrite Sh. apply I.
      + intros Hs. destruct (Cf Hs y Hy) as (y1' & Hy1' & Hf). rewrite Hy1 in Hy1'. injection Hy1' as <-. rewrite Hf. by apply (iv_force _ _ _ _ _ _ _ _ _ I).
      + apply O1.
      + apply I.
      + apply I.
      + apply I.
      + apply I.
      + intros l0 Hl0 H. rewrite !status_default, Sls, <- status_default. by apply (iv_links _ _ _ _ _ _ _ _ _ I).
      + intros j u Hu1. rewrite Sts in Hu1. destruct (iv_reg _ _ _ _ _ _ _ _ _ I j u Hu1) as (tk' & x' & H1 & H2 & H3 & H4 & H5 & H6 & H7).
        destruct (decide (j = t_id tk)) as [->|Hn].
        * assert (u = t) as -> by congruence. exists tk, x1. assert (x' = x) as -> by congruence.
          split_and!; [done..|congruence|congruence| |done]. intros [? ?]. congruence.
        * exists tk', x'. split_and!; try done; [by apply Tis; [|eapply Hne]|]. intros HN _. by apply H7.
      + intros w' u Hwu. rewrite Cq in Hwu. change (s_queue p) with q in Hwu.
        destruct (iv_queue _ _ _ _ _ _ _ _ _ I w' u) as (j & x' & H1 & H2 & _ & H4 & H5); [rewrite Hq; by right|].
        assert (u <> t) as Hut.
        { intros ->. pose proof (iv_nodup _ _ _ _ _ _ _ _ _ I) as N. rewrite Hq, fmap_cons in N. apply NoDup_cons in N as [N _].
          apply N. apply elem_of_list_fmap. by exists (w', t). }
        exists j, x'. rewrite Sts. split_and!; [done|done| |by apply Tis|done]. intros [= He]. rewrite <- He in H1. congruence.
      + rewrite Cq. change (s_queue p) with q. pose proof (iv_nodup _ _ _ _ _ _ _ _ _ I) as N. rewrite Hq, fmap_cons in N. by apply NoDup_cons in N as [_ N].
      + intros tk' H1 H2 H3 H4 H5. destruct (iv_ready _ _ _ _ _ _ _ _ _ I tk' H1 H2 ltac:(done) H4 H5) as (u & x' & H6 & H7 & H8).
        assert (u <> t) as Hut by (eapply Hne; [done|]; congruence). exists u, x'. rewrite Sts. split_and!; [done|by apply Tis|].
        destruct H8 as [H8|]; [|by right]. left. rewrite Cq. change (s_queue p) with q. rewrite Hq, fmap_cons in H8. by apply elem_of_cons in H8 as [->|].
      + intros l0 tk'. rewrite Sts. apply I.
      + rewrite Ss. apply I.
      + rewrite Ss. apply I.
      + apply I.
      + intros tk' []%elem_of_nil.
      + constructor.
      + pose proof (iv_told _ _ _ _ _ _ _ _ _ I) as T.
        assert (forall e, e ∈ s_log s -> e ∈ s_log s1) as Hold by (intros e He; rewrite Hlog; apply elem_of_app; right; by right).
        assert (forall e, e ∈ s_log s1 -> frame_ev (s_sfctr p) 0 tk e \/ (exists w i j, e = EvQDel w i j) \/ e ∈ s_log s) as Hcs.
        { intros e He. rewrite Hlog in He. apply elem_of_app in He as [He|[->|He]%elem_of_cons]; [left; by apply Fl'|right; left; eauto|by right; right]. }
        split.
        * intros j z Hz Hn He. destruct (Hcs _ He) as [[?|(_ & _ & ?)]|[(?&?&?&?)|H]]; [lia|done|done|]. by apply (to_upd _ _ _ _ _ _ _ T).
        * intros j z H. by apply Hold, (to_F _ _ _ _ _ _ _ T).
        * intros k z He. destruct (Hcs _ He) as [[]|[(?&?&?&?)|H]]; [done|]. by apply (to_set _ _ _ _ _ _ _ T).
        * intros k z H. by apply Hold, (to_V _ _ _ _ _ _ _ T).
        * intros k b He. destruct (Hcs _ He) as [[]|[(?&?&?&?)|H]]; [done|]. by apply (to_val _ _ _ _ _ _ _ T k b).
        * intros tk' z H1 H2. destruct (to_rule _ _ _ _ _ _ _ T tk' z H1 H2) as (v & H3 & H4). exists v. split; [done|].
          intros Hz l0 Hl0 Hty0 b. rewrite <- (H4 Hz l0 Hl0 Hty0 b). split; [|apply Hold].
          intros He. by destruct (Hcs _ He) as [[]|[(?&?&?&?)|H]].
        * apply T.
        * rewrite Hevs. apply NoDup_app. split_and!; [apply T| |].
          -- intros e He Hin. apply elem_of_list_fmap in Hin as (? & -> & _). done.
          -- destruct ps as [|? [|]]; cbn in Hps |- *; [constructor|apply NoDup_singleton|lia].
        * intros i j H. rewrite Hevs in H. apply elem_of_app in H as [H|H].
          -- destruct (to_eval _ _ _ _ _ _ _ T i j H) as (-> & [?|[?|[?|(HN & u & x2 & Hu2 & Hx2 & Hw)]]]); [done|auto..|]. split; [done|].
             right; right; right. split; [done|]. exists u, x2. rewrite Sts. split_and!; [done| |done]. apply Tis; [done|]. intros ->. assert (x2 = x) as -> by congruence. by rewrite Hst in Hw.
          -- apply elem_of_list_fmap in H as (? & [= -> ->] & _). auto.
        * intros j Hc H. rewrite Hevs. apply elem_of_app. left. by apply (to_call _ _ _ _ _ _ _ T).
        * intros j o Hc He. rewrite Hlog in He. apply elem_of_app in He as [He|[?|He]%elem_of_cons]; [|done|].
          -- left. f_equal. destruct (Hends _ _ He) as [_ ?]. done.
          -- destruct (to_out _ _ _ _ _ _ _ T j o Hc He) as [?|[?|(HN & u & x2 & Hu2 & Hx2 & Hw)]]; [done|by right; left|].
             right; right. split; [done|]. exists u, x2. rewrite Sts. split_and!; [done| |done]. apply Tis; [done|]. intros ->. assert (x2 = x) as -> by congruence. by rewrite Hst in Hw.
        * intros j z Hc H Hz. destruct (to_res _ _ _ _ _ _ _ T j z Hc H Hz) as [o Ho]. exists o. by apply Hold.
    - by rewrite Sts.
    - congruence.
    - congruence.
    - congruence.
    - congruence.
    - intros Hc. rewrite Hevs. apply elem_of_app. right. specialize (Hsm (HC Hc tk Htk)).
      destruct ps as [|p0 ps']; [by inversion Hsm|]. rewrite fmap_cons. left.
    - subst r. destruct r0 as [e|[]]; [left; by exists e|by right; left|]. right; right. split; [done|]. intros Hs. by apply (Hres Hs).
    - intros Hc. specialize (Hsm (HC Hc tk Htk)). destruct ps as [|p0 [|]]; [by inversion Hsm| |cbn in Hps; lia].
      assert (match r with inl _ => ended p0.2 = TFailed | inr _ => ended p0.2 = TDone end) as Hp0.
      { subst r. destruct p0 as [ins o]. cbn in Hsm |- *. inversion Hsm as [b|e He1|e os r1 He1 He2 He3]; [by destruct b|done|]. by inversion He3. }
      split.
      + exists p0.2. rewrite Hlog. apply elem_of_app. left. apply (Hendm (EvActEnd 0 (t_id tk) p0.2)). cbn. by right; left.
      + intros o He. rewrite Hlog in He. apply elem_of_app in He as [He|[?|He]%elem_of_cons]; [|done|].
        * assert (EvActEnd 0 (t_id tk) o ∈ pairs 0 tk (iter_of t p) [p0]) as H by by apply Hends. cbn in H.
          apply elem_of_cons in H as [?|H]; [done|]. apply elem_of_list_singleton in H. injection H as ->. done.
        * exfalso. destruct (to_out _ _ _ _ _ _ _ (iv_told _ _ _ _ _ _ _ _ _ I) _ _ Hc He) as [?|[?|(_ & u & x2 & Hu2 & Hx2 & Hw)]]; [done|congruence|].
          assert (u = t) as -> by congruence. assert (x2 = x) as -> by congruence. by rewrite Hst in Hw.
    - intros Sm Hnf e Hr. specialize (Hsm Sm). subst r. destruct r0 as [e0|[]]; [|done..].
      assert (forall c os r, retried c os r -> forall e, r = inl e -> Some e ∈ os) as Hlast.
      { clear. intros c os r H. induction H as [c b|c e H|c e os r H1 H2 H3 IH]; intros e0 ?; simplify_eq; [left|]. right. by apply IH. }
      pose proof (Hlast _ _ _ Hsm e0 eq_refl) as Hin. apply elem_of_list_In, in_map_iff in Hin as ((ins & o) & Ho & Hin). cbn in Ho. subst o.
      assert (EvActEnd 0 (t_id tk) (Some e0) ∈ l) as Hend.
      { apply elem_of_list_In, in_rev, elem_of_list_In. assert (EvActEnd 0 (t_id tk) (Some e0) ∈ marks (rev l)) as H.
        { rewrite Hm. unfold pairs. apply elem_of_list_In, in_flat_map. exists (ins, Some e0). split; [done|]. by right; left. }
        unfold marks in H. apply elem_of_list_In, filter_In in H as [H _]. by apply elem_of_list_In. }
      destruct Clg as (l2 & Hl2 & Fl2). rewrite Hl in Hl2. apply app_inv_tail in Hl2. subst l2. rewrite Forall_forall in Fl2.
      by apply (Fl2 _ Hend).
  Qed.

  (** Waiting for the activity. *)
  Lemma inv_wait F V t tk x s r s1 y1 x1 : evaluated_inv F V t tk x s r s1 y1 x1 -> ~ sync ->
    exists y2, inv None [] F V y2 (set_task_status t TWaiting s1).2 /\ i_status y2 = FActive.
  Proof.
    intros [_ Htk _ _ I Hreg Hx Hxt Hxi Hst HF Hrd Hlive Ha _ Hfr _ _] Hns.
    assert ((set_task_status t TWaiting s1).2 = p_tstat t x1 TWaiting s1) as ->.
    { unfold set_task_status, bind, get_ti, bind, get. rewrite Hx. done. }
    set (s2 := p_tstat t x1 TWaiting s1).
    assert (s_tis s2 !! t = Some (set_ti_status TWaiting x1)) as Hx2 by (cbn; by rewrite lookup_alter, Hx).
    assert (forall u, u <> t -> s_tis s2 !! u = s_tis s1 !! u) as Hne by (intros u Hu; cbn; by rewrite lookup_alter_ne).
    assert (forall j u, i_tasks y1 !! j = Some u -> j <> t_id tk -> u <> t) as Hinj.
    { intros j u Hj Hn ->. destruct (iv_reg _ _ _ _ _ _ _ _ _ I j t Hj) as (tk' & x' & _ & <- & Hx3 & _ & Ht3 & _). congruence. }
    exists y1. split; [|done]. split.
    - apply I.
    - apply I.
    - apply I.
    - apply I.
    - intros u Hu. destruct (decide (u = t)) as [->|]; [|rewrite Hne by done; by apply (iv_o _ _ _ _ _ _ _ _ _ I)].
      by rewrite (iv_o _ _ _ _ _ _ _ _ _ I) in Hx.
    - apply I.
    - apply I.
    - apply I.
    - apply I.
    - apply I.
    - intros j u Hu. destruct (decide (j = t_id tk)) as [->|Hn].
      + assert (u = t) as -> by congruence. exists tk, (set_ti_status TWaiting x1). split_and!; [done..| |].
        * intros [? ?]. congruence.
        * intros _ _. right. split_and!; [|done|done]. by right.
      + destruct (iv_reg _ _ _ _ _ _ _ _ _ I j u Hu) as (tk' & x' & H1 & H2 & H3 & H4 & H5 & H6 & H7).
        exists tk', x'. split_and!; [done..|rewrite Hne by (by eapply Hinj); done|done|done|done|]. intros HN _. apply H7; [done|]. congruence.
    - intros w u Hwu. change (s_queue s2) with (s_queue s1) in Hwu.
      destruct (iv_queue _ _ _ _ _ _ _ _ _ I w u Hwu) as (j & x' & H1 & H2 & H3 & H4 & H5). exists j, x'. split_and!; try done.
      rewrite Hne; [done|]. eapply Hinj; [done|]. congruence.
    - apply I.
    - intros tk' H1 H2 _ H4 H5. destruct (decide (t_id tk' = t_id tk)) as [He|Hn].
      + exists t, (set_ti_status TWaiting x1). rewrite He. split_and!; [done..|by right].
      + destruct (iv_ready _ _ _ _ _ _ _ _ _ I tk' H1 H2 ltac:(congruence) H4 H5) as (u & x' & H6 & H7 & H8).
        exists u, x'. split_and!; [done| |done]. rewrite Hne; [done|]. by eapply Hinj.
    - apply I.
    - apply I.
    - apply I.
    - apply I.
    - intros tk' []%elem_of_nil.
    - constructor.
    - pose proof (iv_told _ _ _ _ _ _ _ _ _ I) as T.
      assert (s_log s2 = EvTaskUpd (ti_inst x1) (t_id (ti_task x1)) TWaiting :: s_log s1) as Hlog by done.
      rewrite Hxt, Hxi in Hlog.
      assert (forall e, e ∈ s_log s2 -> (e = EvTaskUpd 0 (t_id tk) TWaiting) \/ e ∈ s_log s1) as Hcs.
      { intros e He. rewrite Hlog in He. by apply elem_of_cons in He. }
      assert (forall e, e ∈ s_log s1 -> e ∈ s_log s2) as Hold by (intros e He; rewrite Hlog; by right).
      assert (evaluations s2 = evaluations s1) as Hevs.
      { apply (evaluations_eq s1 s2 [EvTaskUpd 0 (t_id tk) TWaiting] Hlog). intros i j ins it [=]%elem_of_list_singleton. }
      split.
      + intros j z Hz _ He. destruct (Hcs _ He) as [[= -> ->]|H]; [by destruct Hz as [?|[?|?]]|].
        destruct (decide (j = t_id tk)) as [->|Hn]; [by destruct (Hfr z Hz)|]. apply (to_upd _ _ _ _ _ _ _ T); [done|congruence|done].
      + intros j z H. by apply Hold, (to_F _ _ _ _ _ _ _ T).
      + intros k z He. destruct (Hcs _ He) as [?|H]; [done|]. by apply (to_set _ _ _ _ _ _ _ T).
      + intros k z H. by apply Hold, (to_V _ _ _ _ _ _ _ T).
      + intros k b He. destruct (Hcs _ He) as [?|H]; [done|]. by apply (to_val _ _ _ _ _ _ _ T k b).
      + intros tk' z H1 H2. destruct (to_rule _ _ _ _ _ _ _ T tk' z H1 H2) as (v & H3 & H4). exists v. split; [done|].
        intros Hz l0 Hl0 Hty0 b. rewrite <- (H4 Hz l0 Hl0 Hty0 b). split; [|apply Hold].
        intros He. by destruct (Hcs _ He) as [?|H].
      + apply T.
      + rewrite Hevs. apply T.
      + intros i j H. rewrite Hevs in H.
        destruct (to_eval _ _ _ _ _ _ _ T i j H) as (-> & [[= <-]|[?|[?|(HN & u & x2 & Hu2 & Hx3 & Hw)]]]); [|auto..|]; (split; [done|]).
        * right; right; right. split; [done|]. exists t, (set_ti_status TWaiting x1). done.
        * right; right; right. split; [done|]. destruct (decide (j = t_id tk)) as [->|Hn]; [exists t, (set_ti_status TWaiting x1); done|].
          exists u, x2. split_and!; [done| |done]. rewrite Hne; [done|]. by eapply Hinj.
      + intros j Hc H. rewrite Hevs. by apply (to_call _ _ _ _ _ _ _ T).
      + intros j o Hc He. destruct (Hcs _ He) as [?|H]; [done|]. destruct (to_out _ _ _ _ _ _ _ T j o Hc H) as [[= <-]|[?|(HN & u & x2 & Hu2 & Hx3 & Hw)]]; [|auto|].
        * right; right. split; [done|]. exists t, (set_ti_status TWaiting x1). done.
        * right; right. split; [done|]. destruct (decide (j = t_id tk)) as [->|Hn]; [exists t, (set_ti_status TWaiting x1); done|].
          exists u, x2. split_and!; [done| |done]. rewrite Hne; [done|]. by eapply Hinj.
      + intros j z Hc H Hz. destruct (to_res _ _ _ _ _ _ _ T j z Hc H Hz) as [o Ho]. exists o. by apply Hold.
  Qed.

  Notation good := (good d sync calls_ok).
  Notation fin := (fin d).
  Notation count := (count d).

  Lemma target_known y l : i_def y = d -> l ∈ d_links d -> exists tk, link_target (i_def y) l = Some tk.
  Proof. intros -> Hl. destruct (g_target d G l Hl) as (e & He & _). eauto. Qed.

  (** The task is done. *)
  Lemma done_good F V t tk x s s1 y1 x1 : evaluated_inv F V t tk x s (inr EvalDone) s1 y1 x1 ->
    gn (good [] (<[t_id tk := TDone]> F)) (task_done E t) s1.
  Proof.
    intros [_ Htk _ _ I Hreg Hx Hxt Hxi Hst HF Hrd Hlive Ha Hcall Hfr _ Hout _].
    unfold task_done, handle_task_done. eapply gn_bti; [exact Hx|]. cbv zeta. rewrite Hxi, Hxt. rewrite bool_decide_false by (rewrite Hst; done).
    eapply (gn_loc _ 0 t); [apply I|exact Hx|]. eapply loc_mono.
    { apply (loc_close_done E 0 t C L); [done| |].
      - rewrite Hxt. by apply (g_to_nodup d G).
      - intros l0 Hl0. rewrite Hxt in Hl0. apply (g_to d G tk l0 Htk) in Hl0 as [Hl0 _]. apply target_known; [apply I|done]. }
    intros r y2 x2 ev (v & es & -> & CL & Hup) n. cbn beta iota.
    assert (t_id (ti_task x1) = t_id tk) as Hid by (by rewrite Hxt). rewrite Hid in Hup.
    assert (inv None (es.*1 ++ []) (<[t_id tk := TDone]> F) (decided tk TDone v V) y2 (put 0 t y2 x2 ev n s1)) as I2.
    { eapply (inv_close d sync calls_ok G AC NS tk [] F V t TDone v es (Some (t_id tk)) y1 x1 y2 x2 ev n s1 I eq_refl Htk);
        [done|done|done|done|done| | |done|by left|done| |by right| |done|by intros ? _; apply Hcall|intros Hc o Ho; symmetry; by apply (Hout Hc)|intros Hc _; by apply Hout].
      - intros k []%elem_of_nil.
      - intros k []%elem_of_nil.
      - split; [done|]. intros H. by destruct H.
      - intros z Hz He. by destruct (Hfr z Hz). }
    rewrite Hxt.
    destruct (cl_es _ _ _ _ _ _ _ _ _ CL) as (A & Hf & Hp & HA). cbv zeta in *. rewrite Hxt in Hp, Hf, HA.
    eapply (after_close d sync calls_ok G AC NS PT E NC SO C L (enter_top E) tk t x2 TDone []); [exact I2|done|apply lookup_insert|apply put_ti| | | | | |].
    - intros Hto. rewrite Hto in Hp, Hf. apply Permutation_nil_r in Hp. rewrite Hp in Hf. by apply Forall2_nil_inv_r in Hf.
    - intros Hto ->. apply Forall2_nil_inv_l in Hf. rewrite Hf in Hp. apply Permutation_nil_l in Hp. congruence.
    - intros k []%elem_of_nil.
    - intros I3 Hf3. by eapply enter_top_good.
    - apply (op_enter_top _ _ ops_over).
    - apply (op_enter_top _ _ ops_wd).
  Qed.

  (** The task failed and has an error link. *)
  Lemma failed_good F V t tk x s e s1 y1 x1 : evaluated_inv F V t tk x s (inl e) s1 y1 x1 ->
    (exists l, l ∈ t_to tk /\ l_type l = LtError) ->
    gn (good [] (<[t_id tk := TFailed]> F)) (handle_task_error E t e) s1.
  Proof.
    intros [_ Htk _ _ I Hreg Hx Hxt Hxi Hst HF Hrd Hlive Ha Hcall Hfr _ Hout _] Hle.
    assert (handle_task_error E t e s1 = bind (set_task_status t TFailed ;; add_activity_coverage E t ;; beh_error E t) (fun r =>
      x <- get_ti t;
      let i := ti_inst x in
      if (r.1 : bool) then
        set_task_error E t e ;;
        (match r.2 with [] => ret tt | es => enter_top E i es ;; ret tt end) ;;
        release_task i (ti_task x)
      else
        y <- get_inst i;
        if i_handling y then
          set_flow_status E i FFailed ;;
          if (i =? 0)%nat then append_error_data E t e
          else
            record_state E ;;
            match i_host y with
            | Some ht => upd_ti ht (set_ti_rerr (Some e)) ;; schedule_eval ht
            | None => ret tt
            end
        else
          append_error_data E t e ;;
          handle_global_error E (enter_top E) i e) s1) as Heq.
    { rewrite bind_assoc. unfold handle_task_error. apply bind_ext. intros _ s'. by rewrite bind_assoc. }
    unfold gn. rewrite Heq. clear Heq. match goal with |- good _ _ (?m s1) => change (gn (good [] (<[t_id tk := TFailed]> F)) m s1) end.
    eapply (gn_loc _ 0 t); [apply I|exact Hx|]. eapply loc_mono.
    { apply (loc_close_error E 0 t C L); [done| | |by rewrite Hxt].
      - rewrite Hxt. by apply (g_to_nodup d G).
      - intros l0 Hl0. rewrite Hxt in Hl0. apply (g_to d G tk l0 Htk) in Hl0 as [Hl0 _]. apply target_known; [apply I|done]. }
    intros r y2 x2 ev (es & -> & Hne & CL & Hup) n. cbn beta iota.
    assert (t_id (ti_task x1) = t_id tk) as Hid by (by rewrite Hxt). rewrite Hid in Hup.
    destruct (cl_x _ _ _ _ _ _ _ _ _ CL) as (_ & Hi2 & Ht2).
    eapply gn_bti; [apply put_ti|]. cbn [fst snd]. rewrite Hi2, Ht2, Hxt.
    eapply (gn_loc _ 0 t); [apply put_inst|apply put_ti|]. unfold set_task_error. apply loc_bti. rewrite Hi2, Ht2, Hxt.
    unfold set_value. apply loc_set_values. intros n2. rewrite put_put.
    match goal with |- gn _ _ (put 0 t ?y ?x ?l ?n s1) => set (y3 := y); set (ev3 := l); set (n3 := n) end.
    assert (inv None (es.*1 ++ []) (<[t_id tk := TFailed]> F) (decided tk TFailed (fun _ => false) V) y3 (put 0 t y3 x2 ev3 n3 s1)) as I2.
    { eapply (inv_close d sync calls_ok G AC NS tk [] F V t TFailed (fun _ => false) es (Some (t_id tk)) y1 x1 y3 x2 ev3 n3 s1 I eq_refl Htk);
        [done|done|done|done|done| | | |by right; right| | |by right| |done|by intros ? _; apply Hcall|intros Hc o Ho; symmetry; by apply (Hout Hc)|intros Hc _; by apply Hout].
      - intros k []%elem_of_nil.
      - intros k []%elem_of_nil.
      - by apply closing_attrs.
      - by right.
      - split; [done|]. intros H. by destruct H.
      - intros z Hz He. by destruct (Hfr z Hz). }
    assert (fin (<[t_id tk := TFailed]> F) y3) as Hfin.
    { intros _ Hall. exfalso. destruct es as [|e0 es']; [done|]. destruct (iv_U1 _ _ _ _ _ _ _ _ _ I2 e0.1) as (H1 & H2 & _); [left|].
      destruct (Hall _ H1) as [? ?]. congruence. }
    assert (forall A (k : unit -> M A), bind (match es with [] => ret tt | e0 :: l => enter_top E 0 (e0 :: l) ;; ret tt end) k = bind (enter_top E 0 es ;; ret tt) k) as ->.
    { intros. by destruct es. }
    assert (Ox := ops_over). assert (Ow := ops_wd).
    set (s3 := put 0 t y3 x2 ev3 n3 s1) in *.
    eapply (good_bind d sync calls_ok G AC NS PT [] []).
    - eapply (good_bind d sync calls_ok G AC NS PT [] []); [by eapply enter_top_good| |intros; by apply (op_ret _ Ox)].
      intros a s' F' V' y' Hs' Hsub I' Hf'. right. split; [by exists tt|]. by exists F', V', y'.
    - intros [] s' F' V' y' Hms Hsub I' Hf'.
      assert (exists x', s_tis s' !! t = Some x') as [x' Hx'].
      { assert (wd_kept s3 s') as [_ Hk].
        { assert (op wd_kept (enter_top E 0 es ;; ret tt)) as H by (apply (op_bind _ Ow); [by apply (op_enter_top _ _ Ow)|intros; by apply (op_ret _ Ow)]).
          specialize (H s3). by rewrite Hms in H. }
        destruct (Hk t x2) as (x' & Hx' & _); [|apply put_ti|eauto]. destruct (decide (t < s_nti s3)%nat) as [|Hge]; [done|].
        pose proof (iv_o _ _ _ _ _ _ _ _ _ I2 t ltac:(fold s3; lia)) as H. unfold s3 in H. by rewrite put_ti in H. }
      destruct (inv_release d sync calls_ok G AC NS PT [] F' V' y' s' tk TFailed t x' I' Htk) as (a & s2 & Hr & y4 & I4 & Hs4).
      { eapply lookup_weaken; [|exact Hsub]. apply lookup_insert. }
      { done. }
      unfold gn. rewrite Hr. right. split; [by exists a|]. exists F', V', y4. split_and!; [done|done|].
      intros H1 H2. rewrite Hs4. by apply Hf'.
    - intros _. by apply (op_release _ Ox).
  Qed.

  (** ** A step *)
  Definition here (F : gmap string Z) (s : st) : Prop := exists V y, inv None [] F V y s /\ fin F y.
  (** The flow was ended in a way other than the normal one. *)
  Definition cut (s : st) : Prop :=
    over s /\ NoDup (evaluations s) /\ (returns_not sync -> main_status s = Some FFailed) /\ (sync -> exists tk, tk ∈ d_tasks d /\ no_error_link tk /\ ~ never_fails E tk).

  Lemma inv_same cur K F V y s s' l :
    inv cur K F V y s -> s_insts s' = s_insts s -> s_tis s' = s_tis s -> s_nti s' = s_nti s -> s_queue s' = s_queue s ->
    s_log s' = l ++ s_log s -> Forall (still cur) l -> inv cur K F V y s'.
  Proof.
    intros I H1 H2 H3 H4 H5 H6. eapply inv_touch; [exact I|rewrite H1; apply I|done|done|done|done|done|by left|done| | |done|exact H5|done].
    - intros u x Hx. exists x. by rewrite H2.
    - intros u Hu. rewrite H2. apply (iv_o _ _ _ _ _ _ _ _ _ I). by rewrite <- H3.
  Qed.
  Lemma cut_step n s : cut s -> cut (set_s_step n s).
  Proof. done. Qed.

  Lemma step_here uri F s : running E d uri s -> here F s ->
    (main_status s = Some FActive -> s_queue s = [] -> (do_step E s).2 = set_s_step (S (s_step s)) s /\ here F (do_step E s).2) /\
    (main_status s = Some FActive -> s_queue s <> [] -> cut (do_step E s).2 \/
      exists F', F ⊆ F' /\ here F' (do_step E s).2 /\ (sync -> (count F' < count F)%nat)) /\
    (main_status s <> Some FActive -> (do_step E s).2 = set_s_step (S (s_step s)) s /\ here F (do_step E s).2).
  Proof.
    intros R (V & y & I & Hf). pose proof (iv_y _ _ _ _ _ _ _ _ _ I) as Hy.
    assert (main_status s = Some (i_status y)) as Hms by (unfold main_status; by rewrite Hy).
    assert ((do_step E s).2 = set_s_step (S (s_step s)) s -> (do_step E s).2 = set_s_step (S (s_step s)) s /\ here F (do_step E s).2) as Hsame.
    { intros Heq. split; [done|]. rewrite Heq. exists V, y. split; [|done]. eapply (inv_same _ _ _ _ _ s _ []); done. }
    pose proof (do_step_cases E s) as Hcs. split_and!.
    - intros Hm Hq. apply Hsame. destruct Hcs as [?|(w & t & q & x & y' & Hq' & _)]; [done|congruence].
    - intros Hm Hne. destruct (s_queue s) as [|[w t] q] eqn:Hq; [done|]. assert (i_status y = FActive) as Ha by congruence.
      assert (okq s) as Ok. { apply running_reach in R as [c R]. by apply fresh_okq, (reach_fresh _ _ _ _ _ R). }
      destruct (head_evaluated F V y s w t q I Ok Ha Hq) as (tk & x' & r & s1 & y1 & x1 & EI).
      pose proof (evaluates_step _ _ _ _ _ _ (ei_ev _ _ _ _ _ _ _ _ _ _ EI)) as Hst.
      assert (NoDup (evaluations (do_step E s).2)) as Hnd.
      { rewrite (step_evaluations _ _ _ _ _ _ (ei_ev _ _ _ _ _ _ _ _ _ _ EI)).
        apply (to_once _ _ _ _ _ _ _ (iv_told _ _ _ _ _ _ _ _ _ (ei_inv _ _ _ _ _ _ _ _ _ _ EI))). }
      assert (Hgo : forall z (m : M unit), gn (good [] (<[t_id tk := z]> F)) m s1 -> (forall e, op (fun s s' => over s -> over s') (exec_recover E t e)) ->
        (do_step E s).2 = (catch m (exec_recover E t) s1).2 -> cut (do_step E s).2 \/
          exists F', F ⊆ F' /\ here F' (do_step E s).2 /\ (sync -> (count F' < count F)%nat)).
      { intros z m Hg Hrec Heq. unfold gn in Hg. unfold catch in Heq. destruct Hg as [[Hov Hns]|((a & Ha') & F' & V' & y2 & Hsub & I' & Hf')].
        - left. split_and!; [|done|done|by intros Hs%HSR]. rewrite Heq. destruct (m s1) as [[] s2]; cbn [fst snd] in *; try done. by apply Hrec.
        - right. exists F'. destruct (m s1) as [o s2]. cbn [fst snd] in *. subst o. cbn [snd] in Heq. rewrite Heq.
          pose proof (ei_F _ _ _ _ _ _ _ _ _ _ EI) as HF. split_and!.
          + etransitivity; [|exact Hsub]. by apply insert_subseteq.
          + by exists V', y2.
          + intros _. pose proof (count_lt d G AC NS PT F tk z (ei_tk _ _ _ _ _ _ _ _ _ _ EI) HF). pose proof (count_le d G AC NS PT _ _ Hsub). lia. }
      assert (forall e, op (fun s s' => over s -> over s') (exec_recover E t e)) as Hrec by (intros e; apply (op_recover _ _ ops_over)).
      assert (Hcase := ei_r _ _ _ _ _ _ _ _ _ _ EI). destruct Hcase as [[e ->]|[->|[-> Hns]]].
      + destruct (existsb is_error_link (t_to tk)) eqn:Hel.
        * apply existsb_exists in Hel as (l & Hl & Hty). apply elem_of_list_In in Hl.
          apply (Hgo TFailed (handle_task_error E t e)); [|done|done]. eapply failed_good; [exact EI|]. exists l. split; [done|].
          by apply bool_decide_eq_true in Hty.
        * assert (no_error_link tk) as Hno.
          { intros l Hl Hty. assert (existsb is_error_link (t_to tk) = true) as H; [|congruence]. apply existsb_exists. exists l.
            split; [by apply elem_of_list_In|]. by apply bool_decide_eq_true. }
          destruct EH as [Hnone|Hfh]; [|destruct (Hfh tk (ei_tk _ _ _ _ _ _ _ _ _ _ EI) Hno) as [Sm Hnf]; by destruct (ei_fails _ _ _ _ _ _ _ _ _ _ EI Sm Hnf e)].
          left. assert (exists y2, s_insts (do_step E s).2 !! 0%nat = Some y2 /\ i_status y2 = FFailed) as (y2 & Hy2 & Hs2).
          { rewrite Hst. cbn [conclude]. pose proof (ei_inv _ _ _ _ _ _ _ _ _ _ EI) as I1.
             pose proof (unhandled_error E t e s1 y1 x1 (iv_y _ _ _ _ _ _ _ _ _ I1) (ei_x1 _ _ _ _ _ _ _ _ _ _ EI)
               (ei_inst _ _ _ _ _ _ _ _ _ _ EI) C ltac:(by rewrite (ei_task _ _ _ _ _ _ _ _ _ _ EI)) (iv_h _ _ _ _ _ _ _ _ _ I1)
               ltac:(by rewrite (iv_d _ _ _ _ _ _ _ _ _ I1))) as HTot.
             destruct (tot_run _ _ _ (tot_catch _ (exec_recover E t) _ _ HTot)) as (a & _ & y2 & Hy2 & Hs2 & _).
             by exists y2. }
          split_and!; [exists y2; by rewrite Hs2|done|intros _; unfold main_status; by rewrite Hy2, <- Hs2|].
          -- intros _. exists tk. split_and!; [apply EI|done|]. intros [Sm Hnf]. by apply (ei_fails _ _ _ _ _ _ _ _ _ _ EI Sm Hnf e).
      + apply (Hgo TDone (task_done E t)); [|done|done]. eapply done_good, EI.
      + right. exists F. split_and!; [done| |done]. destruct (inv_wait _ _ _ _ _ _ _ _ _ _ EI Hns) as (y2 & I2 & Hs2).
        assert ((do_step E s).2 = (set_task_status t TWaiting s1).2) as Heq.
        { rewrite Hst. cbn [conclude]. unfold catch, set_task_status, bind, get_ti, bind, get. by rewrite (ei_x1 _ _ _ _ _ _ _ _ _ _ EI). }
        rewrite Heq. exists V, y2. split; [done|]. intros _ Hall. destruct (Hall tk (ei_tk _ _ _ _ _ _ _ _ _ _ EI)) as [z Hz].
        pose proof (ei_F _ _ _ _ _ _ _ _ _ _ EI). congruence.
    - intros Hm. apply Hsame. destruct Hcs as [?|(w & t & q & x & y' & Hq' & _ & Hy' & Ha & _)]; [done|congruence].
  Qed.
End Onward.
