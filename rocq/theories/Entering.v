(** Errors while the first tasks are entered. No Go counterpart (proof infrastructure). *)
From Verif Require Export LoopWait.
Local Open Scope Z_scope.

Lemma omap_none {A B} (f : A -> option B) (l : list A) : (forall a, a ∈ l -> f a = None) -> omap f l = [].
Proof. induction l as [|a l IH]; intros H; [done|]. cbn. rewrite (H a) by (by left). apply IH. intros b Hb. apply H. by right. Qed.

Section Entering.
  Local Set Default Proof Using "Type*".
  Context (E : env) (er : err) (Err : forall n v, e_setmap E n v = XErr er).

  (** The tasks [l] have been entered and are queued. *)
  Definition lined (l : list task) (s : st) : Prop :=
    (exists y, s_insts s !! 0%nat = Some y /\ i_status y = FActive /\ forall id, id ∉ t_id <$> l -> i_tasks y !! id = None) /\
    Forall2 (fun tk p => p.2 < s_nti s /\ exists x, s_tis s !! p.2 = Some x /\ ti_task x = tk /\ ti_inst x = 0)%nat l (s_queue s).
  (** Nothing has been evaluated or delivered. *)
  Definition unlogged (s : st) : Prop := forall e, e ∈ s_log s ->
    match e with EvAct _ _ _ _ | EvResult _ _ => False | _ => True end.

  (** Entering a task that waits for nothing. *)
  Lemma enter_new l tk s : lined l s -> unlogged s -> t_id tk ∉ t_id <$> l -> t_from tk = [] -> is_Some (t_act tk) ->
    tot (t <- find_or_create_task 0 tk; x <- get_ti t; r <- enter t; ret (t, x, r)) s (fun p s' =>
      p = (s_nti s, mk_tinst 0 tk TNotStarted ∅ ∅ ∅ ∅ None false, EREval) /\ unlogged s' /\ s_nti s' = S (s_nti s) /\ s_queue s' = s_queue s /\
      (exists y, s_insts s' !! 0%nat = Some y /\ i_status y = FActive /\ forall id, id ∉ t_id <$> (l ++ [tk]) -> i_tasks y !! id = None) /\
      (forall t, t <> s_nti s -> s_tis s' !! t = s_tis s !! t) /\
      exists x, s_tis s' !! s_nti s = Some x /\ ti_task x = tk /\ ti_inst x = 0%nat).
  Proof.
    intros ((y & Hy & Ha & Hn) & HQ) U Hid Hf [ac Hac]. eexists _, _. split.
    { unfold find_or_create_task. unfold bind at 1. rewrite (eval_get_inst _ _ _ _ Hy). rewrite (Hn _ Hid). unfold new_tinst. rewrite Hac.
      cbv [bind get modify ret upd_inst log_ev]. cbn. unfold get_ti, bind, get. cbn. rewrite lookup_insert. cbn.
      unfold enter, set_task_status, from_links, get_ti, get_inst, bind, get, upd_ti, modify, log_ev, ret. cbn.
      repeat (rewrite ?lookup_insert, ?lookup_alter; cbn). rewrite Hf. cbn. repeat (rewrite ?lookup_insert, ?lookup_alter; cbn). rewrite Hy. cbn. repeat (rewrite ?lookup_insert, ?lookup_alter; cbn). reflexivity. }
    cbn. split_and!; [done| |done|done| | |].
    - intros e. cbn. rewrite !elem_of_cons. intros [->|[->|[->|He]]]; [done..|by apply U].
    - eexists. rewrite lookup_alter, Hy. split; [done|]. split; [done|]. cbn. intros id Hi. rewrite fmap_app, elem_of_app in Hi.
      rewrite lookup_insert_ne; [apply Hn; tauto|]. intros <-. apply Hi. right. by apply elem_of_list_singleton.
    - intros t Ht. by rewrite !lookup_alter_ne, lookup_insert_ne.
    - rewrite !lookup_alter, lookup_insert. cbn. eauto.
  Qed.

  (** The tasks before the first one with settings are entered, the others are not. *)
  Definition halted (l : list task) (s : st) : Prop := unlogged s /\ main_status s = Some FActive /\
    Forall2 (fun tk p => exists x, s_tis s !! p.2 = Some x /\ ti_task x = tk /\ ti_inst x = 0%nat) l (s_queue s).
  Lemma enter_halts skip pre tk rest : t_from tk = [] -> is_Some (t_act tk) -> t_set tk = true ->
    Forall (fun u => t_from u = [] /\ is_Some (t_act u) /\ t_set u = false) pre ->
    forall l s, lined l s -> unlogged s -> NoDup (t_id <$> (l ++ pre ++ tk :: rest)) ->
    tot (enter_list E skip 0 ((fun u => (u, 0)) <$> (pre ++ tk :: rest))) s (fun _ s' => halted (l ++ pre) s').
  Proof.
    intros Hf Hac Hset Hpre. induction Hpre as [|u pre (Hfu & Hacu & Hsu) Hpre IH]; intros l s L U ND.
    - cbn [app fmap list_fmap] in *. rewrite app_nil_r.
      assert (t_id tk ∉ t_id <$> l) as Hid.
      { rewrite fmap_app, fmap_cons in ND. apply NoDup_app in ND as (_ & ND & _). intros Hin. apply (ND _ Hin). by left. }
      destruct (enter_new l tk s L U Hid Hf Hac) as (p & s' & H & -> & U' & Nn & Q' & (y & Hy & Ha & _) & T' & x & Hx & Hxt & Hxi).
      apply ok_bind in H as (t & s1 & H1 & H). apply ok_bind in H as (x0 & s2 & H2 & H). apply ok_bind in H as (r & s3 & H3 & H).
      injection H as -> -> -> ->. cbn [enter_list].
      eexists _, _. split.
      { unfold bind at 1. rewrite H1. unfold bind at 1. rewrite H2. cbn [ti_sched]. rewrite andb_false_r. unfold bind at 1. rewrite H3.
        unfold apply_settings, bind at 1. rewrite (eval_get_ti _ _ _ _ Hx). rewrite Hxt, Hset. cbv [ext tick bind get modify ret]. rewrite Err. cbn. reflexivity. }
      destruct L as (_ & HQ). split_and!; cbn.
      + intros e. cbn. apply U'.
      + unfold main_status. cbn. by rewrite Hy, <- Ha.
      + cbn. rewrite Q'. eapply Forall2_impl; [exact HQ|]. intros tk' [w t] (Hlt & x' & Hx' & Ht' & Hi'). cbn in *. exists x'.
        rewrite lookup_alter_ne by lia. rewrite T' by lia. done.
    - cbn [app fmap list_fmap] in *.
      assert (t_id u ∉ t_id <$> l) as Hid.
      { rewrite fmap_app, fmap_cons in ND. apply NoDup_app in ND as (_ & ND & _). intros Hin. apply (ND _ Hin). by left. }
      destruct (enter_new l u s L U Hid Hfu Hacu) as (p & s' & H & -> & U' & Nn & Q' & (y & Hy & Ha & Hn) & T' & x & Hx & Hxt & Hxi).
      apply ok_bind in H as (t & s1 & H1 & H). apply ok_bind in H as (x0 & s2 & H2 & H). apply ok_bind in H as (r & s3 & H3 & H).
      injection H as -> -> -> ->. cbn [enter_list].
      apply tot_bind. eexists _, _. split; [exact H1|]. apply tot_bind. eexists _, _. split; [exact H2|]. cbn [ti_sched]. rewrite andb_false_r.
      apply tot_bind. eexists _, _. split; [exact H3|]. cbn beta iota. apply tot_bind. eexists _, _. split.
      { unfold apply_settings. rewrite (eval_get_ti _ _ _ _ Hx). rewrite Hxt, Hsu. reflexivity. }
      cbn beta iota. apply tot_bind, tot_upd_ti, tot_bind. eexists tt, _. split.
      { unfold schedule_eval. rewrite (eval_get_ti _ _ (set_ti_sched true x)); [reflexivity|]. cbn. by rewrite lookup_alter, Hx. }
      assert (l ++ u :: pre = (l ++ [u]) ++ pre) as -> by (by rewrite <- app_assoc).
      apply IH; [| |by rewrite <- app_assoc].
      + destruct L as (_ & HQ). split; [by exists y|]. cbn. rewrite Q', Nn. apply Forall2_app.
        * eapply Forall2_impl; [exact HQ|]. intros tk' [w t] (Hlt & x' & Hx' & Ht' & Hi'). cbn in *. split; [lia|]. exists x'.
          rewrite lookup_alter_ne by lia. rewrite T' by lia. done.
        * constructor; [|done]. cbn. split; [lia|]. rewrite lookup_alter, Hx. cbn. eexists. split; [done|]. by split.
      + intros e. cbn. intros [->|He]%elem_of_cons; [done|by apply U'].
  Qed.

  (** The same for a flow that is started. *)
  Lemma start_halts d uri ins pre tk rest : List.filter (fun u => match t_from u with [] => true | _ => false end) (d_tasks d) = pre ++ tk :: rest ->
    NoDup (t_id <$> (pre ++ tk :: rest)) -> is_Some (t_act tk) -> t_set tk = true ->
    Forall (fun u => is_Some (t_act u) /\ t_set u = false) pre -> halted pre (started E d uri ins).
  Proof.
    intros Hst ND Hac Hset Hpre. unfold started. destruct (started_first E d uri ins) as (s1 & -> & y & HI & _ & _ & Ha & Hd & Ht & _ & _ & _ & _ & Htis & Hn & Hq & _ & _ & _ & _ & Hl & l0 & l & Hlog & Hev).
    assert (forall u, u ∈ pre ++ tk :: rest -> t_from u = []) as Hf.
    { intros u Hu. rewrite <- Hst in Hu. apply elem_of_list_In, filter_In in Hu as [_ Hu]. by destruct (t_from u). }
    assert (tot (enter_list E (fun t => handle_task_done E (enter_tasks E (length (all_tasks d))) t) 0 (start_entries (d_tasks d)))
      (if e_conc E then set_s_lock true s1 else s1) (fun _ s' => halted pre s')) as (r & s2 & H2 & HH).
    { unfold start_entries. change leading with (fun u => match t_from u with [] => true | _ => false end). rewrite Hst. apply (enter_halts _ pre tk rest) with (l := []); try done.
      - apply Hf. rewrite elem_of_app. right. by left.
      - rewrite Forall_forall in Hpre |- *. intros u Hu. destruct (Hpre u Hu) as [? ?]. split; [|done]. apply Hf. rewrite elem_of_app. by left.
      - assert (forall s, s_insts s = s_insts s1 -> s_queue s = s_queue s1 -> lined [] s) as HL.
        { intros s H1 H2. split; [|rewrite H2, Hq; by constructor]. exists y. rewrite H1, HI. split; [apply lookup_singleton|]. split; [done|]. intros id _. by rewrite Ht. }
        destruct (e_conc E); by apply HL.
      - assert (unlogged s1) as U1.
        { intros e He. rewrite Hlog in He. apply elem_of_app in He as [He|[->|He]%elem_of_cons]; [|done|];
            (assert (quiet_ev e) as Hq' by (apply Hev; rewrite elem_of_app; tauto)); by destruct e. }
        destruct (e_conc E); exact U1. }
    unfold enter_top. unfold bind at 1. assert (s_insts s1 !! 0%nat = Some y) as Hy by (by rewrite HI, lookup_singleton).
    rewrite (eval_get_inst _ _ _ _ Hy), Hd. cbn [enter_tasks]. unfold with_lock. destruct (e_conc E).
    - unfold bind at 1, get. rewrite Hl. unfold bind at 1, modify at 1. unfold finally, catch. unfold bind at 1 2. rewrite H2. unfold ret at 1. unfold bind, modify, ret. cbn.
      exact HH.
    - rewrite H2. exact HH.
  Qed.

  Lemma unlogged_nothing s : unlogged s -> evaluations s = [] /\ delivered s = [].
  Proof using Type.
    intros U. unfold evaluations, delivered, trace. split; apply omap_none; intros e He; rewrite elem_of_list_In, <- in_rev, <- elem_of_list_In in He; specialize (U e He); by destruct e.
  Qed.
  Lemma settings_start d uri ins pre tk rest : start_tasks (d_tasks d) = pre ++ tk :: rest ->
    NoDup (t_id <$> (pre ++ tk :: rest)) -> is_Some (t_act tk) -> t_set tk = true ->
    Forall (fun u => is_Some (t_act u) /\ t_set u = false) pre ->
    let s := started E d uri ins in main_status s = Some FActive /\ evaluations s = [] /\ delivered s = [] /\
    Forall2 (fun u p => exists x, s_tis s !! p.2 = Some x /\ ti_task x = u /\ ti_inst x = 0%nat) pre (s_queue s).
  Proof.
    intros Hst ND Hac Hset Hpre. destruct (start_halts d uri ins pre tk rest Hst ND Hac Hset Hpre) as (U & Hm & HQ). destruct (unlogged_nothing _ U). by split_and!.
  Qed.
  Lemma settings_stall d uri ins tk rest : List.filter (fun u => match t_from u with [] => true | _ => false end) (d_tasks d) = tk :: rest ->
    NoDup (t_id <$> (tk :: rest)) -> is_Some (t_act tk) -> t_set tk = true ->
    forall n, main_status (after E n (started E d uri ins)) = Some FActive /\ evaluations (after E n (started E d uri ins)) = [] /\ delivered (after E n (started E d uri ins)) = [].
  Proof.
    intros Hst ND Hac Hset n. destruct (start_halts d uri ins [] tk rest Hst ND Hac Hset (Forall_nil_2 _)) as (U & Hm & HQ). assert (s_queue (started E d uri ins) = []) as Hq by (by apply Forall2_nil_inv_l in HQ). clear HQ.
    revert U Hm Hq. generalize (started E d uri ins). induction n as [|n IH]; intros s U Hm Hq.
    - cbn [after]. split; [done|]. by apply unlogged_nothing.
    - cbn [after].
      assert (Hs : (do_step E s).2 = set_s_step (S (s_step s)) s).
      { unfold do_step, modify at 1, bind at 1. unfold main_status in Hm. destruct (s_insts s !! 0%nat) as [y|] eqn:Hy; [|done]. injection Hm as Ha.
        assert (Hy0 : s_insts (set_s_step (S (s_step s)) s) !! 0%nat = Some y) by exact Hy. rewrite (eval_get_inst _ _ _ _ Hy0), bool_decide_true by done.
        unfold bind at 1, get. change (s_queue (set_s_step (S (s_step s)) s)) with (s_queue s). by rewrite Hq. }
      rewrite Hs. by apply IH.
  Qed.
End Entering.
