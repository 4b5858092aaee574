(** Task life cycle, subflow hosts and isolation (proofs; no Go counterpart). *)
From Verif Require Export Order.
Local Open Scope Z_scope.

(** ** One step of the engine *)

(** The state in which the task instance of the next work item is executed. *)
Definition popped (w t : nat) (x : tinst) (q : list (nat * nat)) (s : st) : st :=
  p_log (EvQDel w (ti_inst x) (t_id (ti_task x))) (set_s_queue q (set_s_step (S (s_step s)) s)).

Lemma do_step_cases E s :
  (do_step E s).2 = set_s_step (S (s_step s)) s \/
  exists w t q x y, s_queue s = (w, t) :: q /\ s_tis s !! t = Some x /\ s_insts s !! 0%nat = Some y /\
    i_status y = FActive /\ (do_step E s).2 = (exec_task E t (popped w t x q s)).2.
Proof.
  cut (forall r, do_step E s = r -> r.2 = set_s_step (S (s_step s)) s \/
    exists w t q x y, s_queue s = (w, t) :: q /\ s_tis s !! t = Some x /\ s_insts s !! 0%nat = Some y /\
    i_status y = FActive /\ r.2 = (exec_task E t (popped w t x q s)).2); [eauto|]. intros r.
  unfold do_step, modify, bind at 1. set (s1 := set_s_step (S (s_step s)) s).
  unfold bind at 1, get_inst, get, bind at 1.
  destruct (s_insts s1 !! 0%nat) as [y|] eqn:Hy; [|intros <-; by left].
  unfold ret at 1. case_bool_decide as Hst; [|intros <-; by left].
  unfold bind at 1. destruct (s_queue s1) as [|[w t] q] eqn:Hq; [intros <-; by left|].
  unfold bind at 1, get_ti, get, bind at 1.
  destruct (s_tis s1 !! t) as [x|] eqn:Hx; [|intros <-; by left].
  unfold ret at 1, bind at 1, log_ev, modify, bind at 1.
  intros Hr. right. exists w, t, q, x, y. split_and!; try done. revert Hr.
  unfold bind. match goal with |- context [exec_task E t ?s2] => change s2 with (popped w t x q s) end.
  destruct (exec_task E t (popped w t x q s)) as [[]?]; intros <-; reflexivity.
Qed.

Section Life.
  Context (E : env) (d : defn) (uri : string).
  Notation reach := (reach E d uri).

  Lemma popped_reach c s w t x q y :
    reach c s -> s_queue s = (w, t) :: q -> s_tis s !! t = Some x -> s_insts s !! 0%nat = Some y ->
    i_status y = FActive -> reach (Some t) (popped w t x q s).
  Proof.
    intros H Hq Hx Hy Ha. eapply (R_pop _ _ _ c (set_s_step (S (s_step s)) s)); eauto. by apply R_step.
  Qed.
  Lemma exec_asteps c t s : reach c s -> asteps E (Some t) s (exec_task E t s).2.
  Proof. intros H. apply (wp_exec_task E (Some t) t s eq_refl). by eapply reach_fresh. Qed.

  (** Induction over the atomic steps of an execution. *)
  Lemma asteps_inv c (P : st -> Prop) s s' :
    asteps E c s s' -> P s -> (forall s1 s2, P s1 -> astep E c s1 s2 -> P s2) -> P s'.
  Proof. intros St H0 HS. induction St; eauto. Qed.

  (** ** C42 *)
  Definition readiedT (s : st) (t : nat) : Prop := exists i tk, ti_is s t i tk /\ readied s i (t_id tk).
  Lemma readiedT_grows s s' t : grows s s' -> readiedT s t -> readiedT s' t.
  Proof. intros G (i & tk & H & R). exists i, tk. eauto using ti_is_grows, readied_grows. Qed.
  Definition life (c : option nat) (s : st) : Prop :=
    (forall t, c = Some t -> readiedT s t) /\
    (forall w t, (w, t) ∈ s_queue s -> readiedT s t) /\
    (forall i d' t, inst_is s i d' (Some t) -> readiedT s t) /\
    (forall i id z, logged s (EvTaskUpd i id z) -> logged s (EvTaskUpd i id TEntered)).

  Lemma inv_life c s : reach c s -> life c s.
  Proof.
    revert c s. apply (reach_inv E d uri life).
    - split_and!; [done| | |].
      + intros w t H. by apply elem_of_nil in H.
      + intros i d' t (y & Hy & _ & Hh). cbn [s_insts init_st] in Hy. apply lookup_singleton_Some in Hy as [_ <-]. done.
      + intros i id z Hl. unfold logged in Hl. simpl in Hl. apply elem_of_list_singleton in Hl. done.
    - intros c s c' s' HR F (I1 & I2 & I3 & I4) St. pose proof (rstep_grows _ _ _ _ _ St) as G.
      assert (forall t, readiedT s t -> readiedT s' t) as Hg by (intros; by eapply readiedT_grows).
      assert (forall i id z, logged s' (EvTaskUpd i id z) -> logged s' (EvTaskUpd i id TEntered)) as J4.
      { intros i id z Hl. destruct (rstep_log _ _ _ _ _ St) as [Hs|[e Hs]].
        - unfold logged in *. rewrite Hs in *. eauto.
        - unfold logged in Hl. rewrite Hs in Hl. apply elem_of_cons in Hl as [<-|Hl]; [|by eapply logged_grows, I4].
          pose proof (rstep_ev _ _ _ _ _ _ St Hs) as (t & x & Hx & <- & <- & _ & _ & Hc).
          destruct Hc as [[-> _]|[(_ & Hst & _)|[(_ & _ & Hl & _)|[_ Hc]]]].
          + unfold logged. rewrite Hs. apply elem_of_list_here.
          + eapply logged_grows; [exact G|]. destruct F as (_ & _ & _ & F & _).
            rewrite <- Hst. apply (F t x Hx). by rewrite Hst.
          + eapply logged_grows; [exact G|]. by eapply I4.
          + eapply logged_grows; [exact G|]. destruct (I1 t Hc) as (i & tk & Ht & Hr).
            destruct (ti_is_fun _ _ _ _ _ Ht Hx) as [-> ->]. by eapply I4. }
      destruct St as [c s s' St| |c s w t q x y Hq Hx Hy Hst| |].
      + split_and!; [by eauto| | |done].
        * intros w t H. apply astep_queue in St as [(Hq & _)|(t' & x & -> & Hx & Hs)].
          { rewrite Hq in H. eauto. }
          simpl in H. apply elem_of_app in H as [H|H]; [eauto|].
          apply elem_of_list_singleton in H as [= _ ->]. apply Hg.
          destruct Hs as [(_ & Hr & _)|[Hs|(i & d' & Hs & _)]]; eauto.
          eexists _, _. split; [by apply ti_is_intro|done].
        * intros i d' t H. eapply astep_inst_is in H as [H|(t' & n & u & x & _ & H1 & H2 & _)]; [|  |done].
          { eauto. }
          injection H1 as <-. eauto.
      + split_and!; eauto.
      + split_and!; [| | |done].
        * intros t' [= <-]. apply Hg. eapply I2. rewrite Hq. apply elem_of_list_here.
        * intros w' t' H. apply Hg. eapply I2. rewrite Hq. apply elem_of_list_further. done.
        * intros i d' t' H. apply Hg. by eapply I3.
      + split_and!; eauto. intros i d' t Hi. apply inst_is_p_inst in Hi; [|done]. eauto.
      + split_and!; eauto.
  Qed.

  Lemma in_rev_elem {A} (x : A) (l : list A) : x ∈ rev l <-> x ∈ l.
  Proof. by rewrite !elem_of_list_In, <- in_rev. Qed.

  Lemma entered_first s before i id z later :
    visited E d uri s -> trace s = before ++ EvTaskUpd i id z :: later ->
    z = TEntered \/ EvTaskUpd i id TEntered ∈ before.
  Proof.
    intros V Ht. apply visited_reach in V as [c H]. pose proof (trace_split _ _ _ _ Ht) as Hl.
    destruct (history_ev _ _ _ _ _ _ _ _ H Hl) as (c0 & s0 & c1 & s1 & H0 & St & E0 & E1 & Hev & G); [done|].
    destruct (decide (z = TEntered)) as [|Hz]; [by left|right].
    destruct (inv_life _ _ H0) as (I1 & _ & _ & I4). pose proof (reach_fresh _ _ _ _ _ H0) as (_ & _ & _ & F & _).
    assert (logged s0 (EvTaskUpd i id TEntered)) as HL.
    { destruct Hev as (t & x & Hx & <- & <- & _ & _ & Hc).
      destruct Hc as [[-> _]|[(_ & Hst & _)|[(_ & _ & Hlg & _)|[_ Hc]]]].
      - done.
      - rewrite <- Hst. apply (F t x Hx). by rewrite Hst.
      - by eapply I4.
      - destruct (I1 t Hc) as (i & tk & Hti & Hr).
        destruct (ti_is_fun _ _ _ _ _ Hti Hx) as [-> ->]. by eapply I4. }
    unfold logged in HL. rewrite E0 in HL. by apply (proj1 (in_rev_elem _ _)) in HL.
  Qed.

  Lemma eval_after_ready s before i id ins it later :
    visited E d uri s -> trace s = before ++ EvAct i id ins it :: later ->
    EvTaskUpd i id TReady ∈ before.
  Proof.
    intros V Ht. apply visited_reach in V as [c H]. pose proof (trace_split _ _ _ _ Ht) as Hl.
    destruct (history_ev _ _ _ _ _ _ _ _ H Hl) as (c0 & s0 & c1 & s1 & H0 & St & E0 & E1 & Hev & G); [done|].
    destruct Hev as (t & x & y & Hc & _ & Hx & <- & <- & _).
    destruct (inv_life _ _ H0) as (I1 & _). destruct (I1 t Hc) as (i & tk & Hti & Hr).
    destruct (ti_is_fun _ _ _ _ _ Hti Hx) as [<- <-].
    unfold readied, logged in Hr. rewrite E0 in Hr. by apply (proj1 (in_rev_elem _ _)) in Hr.
  Qed.

  (** The work item of the executing task instance is the last one taken. *)
  Definition current (c : option nat) (s : st) : Prop :=
    forall t, c = Some t -> exists l1 l2 w x, s_tis s !! t = Some x /\
      s_log s = l1 ++ EvQDel w (ti_inst x) (t_id (ti_task x)) :: l2 /\
      forall w' i' id', EvQDel w' i' id' ∉ l1.
  Lemma inv_current c s : reach c s -> current c s.
  Proof.
    revert c s. apply (reach_inv E d uri current).
    - done.
    - intros c s c' s' HR _ I St. pose proof (rstep_grows _ _ _ _ _ St) as G.
      destruct St as [c s s' St| |c s w t q x y Hq Hx Hy Hst|c s m y Hy|].
      + intros t Ht. destruct (I t Ht) as (l1 & l2 & w & x & Hx & Hl & Hn).
        destruct (ti_is_grows _ _ _ _ _ G (ti_is_intro _ _ _ Hx)) as (x' & Hx' & Hi' & Htk').
        rewrite <- Hi', <- Htk' in Hl.
        destruct (rstep_log _ _ _ _ _ (RS_a _ _ _ _ St)) as [Hs|[e Hs]].
        * exists l1, l2, w, x'. rewrite Hs. done.
        * exists (e :: l1), l2, w, x'. rewrite Hs, Hl. split_and!; [done|done|].
          intros w' i' id' Hin. apply elem_of_cons in Hin as [<-|Hin]; [|by eapply Hn].
          pose proof (rstep_ev _ _ _ _ _ _ (RS_a _ _ _ _ St) Hs) as (t1 & q1 & x1 & y1 & _ & Hq & _ & _ & _ & _ & _ & Es).
          destruct (astep_queue _ _ _ _ St) as [(Hq' & _)|(t2 & x2 & Es2 & _)].
          -- rewrite Es, Hq in Hq'. cbn in Hq'. apply (f_equal length) in Hq'. simpl in Hq'. lia.
          -- rewrite Es2 in Hs. cbn in Hs. done.
      + done.
      + intros t' [= <-]. exists [], (s_log s), w, x. split_and!; [done|done|]. intros w' i' id' Hin.
        by apply elem_of_nil in Hin.
      + intros t Ht. destruct (I t Ht) as (l1 & l2 & w & x & Hx & Hl & Hn).
        eexists (_ :: l1), l2, w, x. cbn. rewrite Hl. split_and!; [done|done|].
        intros w' i' id' Hin. apply elem_of_cons in Hin as [Hin|Hin]; [done|]. by eapply Hn.
      + intros t Ht. destruct (I t Ht) as (l1 & l2 & w & x & Hx & Hl & Hn).
        eexists (_ :: l1), l2, w, x. cbn. rewrite Hl. split_and!; [done|done|].
        intros w' i' id' Hin. apply elem_of_cons in Hin as [<-|Hin]; [done|]. by eapply Hn.
  Qed.
  Lemma eval_in_item s before i id ins it later :
    visited E d uri s -> trace s = before ++ EvAct i id ins it :: later ->
    exists b1 b2 w, before = b1 ++ EvQDel w i id :: b2 /\ forall w' i' id', EvQDel w' i' id' ∉ b2.
  Proof.
    intros V Ht. apply visited_reach in V as [c H]. pose proof (trace_split _ _ _ _ Ht) as Hl.
    destruct (history_ev _ _ _ _ _ _ _ _ H Hl) as (c0 & s0 & c1 & s1 & H0 & St & E0 & E1 & Hev & G); [done|].
    destruct Hev as (t & x & y & Hc & _ & Hx & <- & <- & _).
    destruct (inv_current _ _ H0 t Hc) as (l1 & l2 & w & x' & Hx' & Hl' & Hn).
    rewrite Hx in Hx'. injection Hx' as <-. exists (rev l2), (rev l1), w. split.
    - rewrite E0 in Hl'. apply (f_equal (@rev _)) in Hl'. rewrite rev_involutive in Hl'.
      rewrite Hl', rev_app_distr. simpl. by rewrite <- app_assoc.
    - intros w' i' id' Hin. apply (proj1 (in_rev_elem _ _)) in Hin. by eapply Hn.
  Qed.

  (** A released task instance that is done or skipped keeps its status. *)
  Definition released (s : st) (t : nat) : Prop := forall i id, ~ registered s i id t.
  Definition retired (s : st) (t : nat) (z : Z) : Prop :=
    (exists x, s_tis s !! t = Some x /\ ti_status x = z) /\ released s t.

  Lemma p_tstat_lookup t0 x z s t y :
    s_tis s !! t = Some y ->
    s_tis (p_tstat t0 x z s) !! t = Some (if decide (t0 = t) then set_ti_status z y else y).
  Proof.
    intros H. cbn. destruct (decide (t0 = t)) as [->|]; [by rewrite lookup_alter, H|].
    by rewrite lookup_alter_ne.
  Qed.
  Lemma p_ti_lookup t0 f s t y :
    s_tis s !! t = Some y -> s_tis (p_ti t0 f s) !! t = Some (if decide (t0 = t) then f y else y).
  Proof.
    intros H. cbn. destruct (decide (t0 = t)) as [->|]; [by rewrite lookup_alter, H|].
    by rewrite lookup_alter_ne.
  Qed.
  Lemma released_p_inst s i f t :
    (forall y id t', i_tasks (f y) !! id = Some t' -> i_tasks y !! id = Some t') ->
    released s t -> released (p_inst i f s) t.
  Proof.
    intros Hf Hr j id (y & Hy & Ht). cbn in Hy. destruct (decide (i = j)) as [->|].
    - rewrite lookup_alter in Hy. destruct (s_insts s !! j) as [y0|] eqn:E0; [|done]. injection Hy as <-.
      apply (Hr j id). exists y0. eauto.
    - rewrite lookup_alter_ne in Hy by done. apply (Hr j id). by exists y.
  Qed.

  Lemma astep_retired c s s' t z :
    fresh s -> astep E c s s' -> c <> Some t -> z = TDone \/ z = TSkipped \/ z = TFailed ->
    retired s t z -> retired s' t z.
  Proof.
    intros F St Hc Hz [(x & Hx & Hst) Hr].
    assert (forall t0 f, ti_data f -> retired (p_ti t0 f s) t z) as Hd.
    { intros t0 f Hf. split; [|exact Hr]. eexists. split; [by apply p_ti_lookup|].
      destruct (decide (t0 = t)); [|done]. destruct (Hf x) as (_ & _ & ?). congruence. }
    assert (forall t0 x0 z0, (t0 = t -> z0 = z) -> retired (p_tstat t0 x0 z0 s) t z) as Hts.
    { intros t0 x0 z0 H0. split; [|exact Hr]. eexists. split; [by apply p_tstat_lookup|].
      destruct (decide (t0 = t)); [simpl; auto|done]. }
    assert (forall i f e, (forall y id t', i_tasks (f y) !! id = Some t' -> i_tasks y !! id = Some t') ->
      retired (p_log e (p_inst i f s)) t z /\ retired (p_inst i f s) t z) as Hi.
    { intros i f e Hf. pose proof (released_p_inst _ i _ _ Hf Hr). split; (split; [|done]); eauto. }
    destruct St as [| | | | | | | |s t0 f H H'|s i y0 t0|s i y0 t0 e|s i f Hf| | | | | | | | | |s t0 x0 uri0 d0 n H1 H2 H3 H4|s i y tk H1 H2 H3 H4 H5 H6
      |s i id t0 x0 H1 H2 H3|s i id t0 x0 y H1|s i id t0 x0 y H1|s t0 x0 H1 H2|s t0 x0 z0 H1 H2|
      | | | |s t0 x0 y H1 H2 H3 H4| | ].
    all: try (split; [by eauto|exact Hr]).
    all: try (by apply (Hi _ _ EvFlowDone); intros y' id' t'; simpl; auto).
    all: try (apply Hi; intros y' id' t'; simpl; auto; fail).
    - by apply Hd.
    - by apply Hd.
    - by apply Hd.
    - apply (Hi _ _ EvFlowDone). intros y' id' t'. destruct (Hf y') as (_ & _ & _ & _ & _ & -> & _). done.
    - (* S_sub *) split; [by eauto|]. intros j id (y & Hy & Ht). cbn [s_insts p_sub p_log set_s_log set_s_insts] in Hy.
      destruct (decide (S (s_sfctr s) = j)) as [<-|].
      + rewrite lookup_insert in Hy. injection Hy as <-. done.
      + rewrite lookup_insert_ne in Hy by done. apply (Hr j id). by exists y.
    - (* S_tnew *) assert (t <> s_nti s) as Hne by congruence. split.
      + exists x. split; [|done]. cbn. by rewrite lookup_insert_ne.
      + intros j id (y' & Hy' & Ht). cbn in Hy'. destruct (decide (i = j)) as [->|].
        * rewrite lookup_alter, H1 in Hy'. injection Hy' as <-. simpl in Ht.
          apply lookup_insert_Some in Ht as [[_ ?]|[_ Ht]]; [congruence|]. apply (Hr j id). by exists y.
        * rewrite lookup_alter_ne in Hy' by done. apply (Hr j id). by exists y'.
    - (* S_enter *) apply Hts. intros ->. exfalso. by eapply Hr.
    - apply Hts. intros ->. exfalso. by eapply Hr.
    - apply Hts. intros ->. exfalso. by eapply Hr.
    - apply Hts. intros ->. congruence.
    - apply Hts. intros ->. congruence.
    - unfold p_tdel. eapply proj1, Hi. intros y' id' t'. simpl. rewrite lookup_delete_Some. by intros [_ ?].
  Qed.

  Lemma exec_finished t s x :
    s_tis s !! t = Some x -> ti_status x = TDone \/ ti_status x = TSkipped -> (exec_task E t s).2 = s.
  Proof.
    intros Hx Hst. unfold exec_task, catch, exec_body, get_ti, bind, get. rewrite Hx. simpl.
    rewrite bool_decide_true; [done|]. tauto.
  Qed.

  Lemma step_retired c s t z :
    reach c s -> z = TDone \/ z = TSkipped -> retired s t z -> retired (do_step E s).2 t z.
  Proof.
    intros H Hz Hr. destruct (do_step_cases E s) as [->|(w & t0 & q & x & y & Hq & Hx & Hy & Ha & ->)]; [done|].
    pose proof (popped_reach _ _ _ _ _ _ _ H Hq Hx Hy Ha) as H1.
    destruct (decide (t0 = t)) as [->|Hne].
    - destruct Hr as [(x' & Hx' & Hst) Hr]. rewrite (exec_finished t _ x'); [|done|by rewrite Hst].
      split; [by eauto|exact Hr].
    - assert (retired (popped w t0 x q s) t z) as Hr1 by exact Hr.
      pose proof (exec_asteps (Some t0) t0 _ H1) as St. pose proof (reach_fresh _ _ _ _ _ H1) as F1.
      revert F1 Hr1. clear -St Hz Hne.
      induction St as [|s1 s2 s3 S1 _ IH]; [done|]. intros F1 Hr1.
      apply IH; [by eapply astep_fresh|]. eapply astep_retired; eauto; [congruence|tauto].
  Qed.

  Lemma settled_retired s t z : settled s t z <-> retired s t z.
  Proof.
    unfold settled, retired, released, registered. split; intros [H1 H2]; (split; [done|]).
    - intros i id (y & Hy & Ht). by eapply H2.
    - intros i y id Hy Ht. eapply H2. eauto.
  Qed.
  Lemma settled_forever s n t z :
    z = TDone \/ z = TSkipped -> running E d uri s -> settled s t z -> settled (after E n s) t z.
  Proof.
    intros Hz H. revert s H. induction n as [|n IH]; intros s H Hr; [done|].
    simpl. apply IH; [by constructor|]. apply settled_retired. apply settled_retired in Hr.
    apply running_reach in H as [c H]. by eapply step_retired.
  Qed.

  (** ** C20 *)
  Lemma inv_subs c s : reach c s -> subflow_ids s = seq 1 (s_sfctr s).
  Proof.
    revert c s. apply (reach_inv E d uri (fun c s => subflow_ids s = seq 1 (s_sfctr s))).
    - done.
    - intros c s c' s' HR _ I St.
      assert ((s_log s' = s_log s \/ exists e, s_log s' = e :: s_log s /\
                 (forall i u p h, e <> EvSubCreated i u p h)) -> s_sfctr s' = s_sfctr s ->
              subflow_ids s' = seq 1 (s_sfctr s')) as Hsame.
      { intros Hl Hq. rewrite Hq, <- I. unfold subflow_ids. destruct Hl as [Hl|(e & Hl & N)].
        - unfold trace. by rewrite Hl.
        - rewrite (trace_log e s s' Hl), !omap_app. simpl. destruct e; simpl; rewrite ?app_nil_r; try done. naive_solver. }
      destruct St as [c s s' St| | | |].
      + destruct St; try (apply Hsame; [by left|done]); try (apply Hsame; [by right; eexists; split; [done|]|done]).
        * apply Hsame; [|done]. right. eexists. split; [done|]. intros ???? ->. done.
        * (* S_sub *) unfold subflow_ids. rewrite (trace_log (EvSubCreated (S (s_sfctr s)) uri0 (ti_inst x) (t_id (ti_task x))) s) by done.
          rewrite omap_app. fold (subflow_ids s). rewrite I. cbn [s_sfctr p_sub p_log set_s_log set_s_insts set_s_sfctr].
          by rewrite seq_S.
      + apply Hsame; [by left|done].
      + apply Hsame; [by right; eexists; split; [done|]|done].
      + apply Hsame; [by right; eexists; split; [done|]|done].
      + apply Hsame; [|done]. right. eexists. split; [done|]. by intros ???? ->.
  Qed.


  (** *** What happens in one step *)
  Lemma lately_new s e l q r :
    s_log s = l ++ q :: r -> (exists w i id, q = EvQDel w i id) -> e <> q -> lately s e -> e ∈ l.
  Proof.
    intros Hl (w & i & id & ->) Hne (l1 & l2 & Hl' & Hn). rewrite Hl in Hl'. clear Hl.
    revert l1 Hl' Hn. induction l as [|a l IH]; intros l1 Hl' Hn; simpl in *.
    - destruct l1 as [|b l1]; simpl in *; [congruence|]. injection Hl' as <- _.
      exfalso. eapply Hn, elem_of_list_here.
    - destruct l1 as [|b l1]; simpl in *.
      + injection Hl' as -> _. apply elem_of_list_here.
      + injection Hl' as -> Hl'. apply elem_of_list_further. eapply IH; [done|].
        intros w' i' id' H. eapply Hn, elem_of_list_further, H.
  Qed.

  (** Induction along the atomic steps of one execution, with the events since its start. *)
  Lemma asteps_ind2 c s0 (P : list event -> st -> Prop) :
    fresh s0 -> P [] s0 ->
    (forall l s s', fresh s -> s_log s = l ++ s_log s0 -> P l s -> astep E c s s' ->
       s_log s' = s_log s -> P l s') ->
    (forall l s s' e, fresh s -> s_log s = l ++ s_log s0 -> P l s -> astep E c s s' ->
       s_log s' = e :: s_log s -> P (e :: l) s') ->
    forall s', asteps E c s0 s' -> exists l, s_log s' = l ++ s_log s0 /\ P l s'.
  Proof.
    intros F0 H0 H1 H2 s' St.
    assert (forall s, asteps E c s s' -> fresh s -> (exists l, s_log s = l ++ s_log s0 /\ P l s) ->
              exists l, s_log s' = l ++ s_log s0 /\ P l s') as H; [|by apply (H s0); eauto; exists []].
    clear St. intros s St. induction St as [|s s1 s2 S1 _ IH]; [done|]. intros F (l & Hl & Hp).
    apply IH; [by eapply astep_fresh|].
    destruct (rstep_log _ _ _ _ _ (RS_a _ _ _ _ S1)) as [Hs|[e Hs]].
    - exists l. rewrite Hs. eauto.
    - exists (e :: l). rewrite Hs, Hl. eauto.
  Qed.

  Lemma elem_snd {A B} (p : A * B) (l : list (A * B)) : p ∈ l -> p.2 ∈ l.*2.
  Proof. apply elem_of_list_fmap_1. Qed.

  (** A task instance that is not ready and not queued is only scheduled when a subflow it started
      ends, or when it is made ready. *)
  Lemma resumed c s t x :
    reach c s -> s_tis s !! t = Some x -> ti_status x <> TReady -> t ∉ (s_queue s).*2 ->
    t ∈ (s_queue (do_step E s).2).*2 ->
    exists new, trace (do_step E s).2 = trace s ++ new /\
     ((exists j y z, s_insts (do_step E s).2 !! j = Some y /\ i_host y = Some t /\
         (z = FCompleted \/ z = FFailed) /\ EvFlowStatus j z ∈ new) \/
      EvTaskUpd (ti_inst x) (t_id (ti_task x)) TReady ∈ new).
  Proof.
    intros H Hx Hst Hq Hq'. destruct (do_step_cases E s) as [Hd|(w & t0 & q & x0 & y0 & Hqs & Hx0 & Hy0 & Ha & Hd)];
      rewrite Hd in *; [done|]. clear Hd.
    pose proof (popped_reach _ _ _ _ _ _ _ H Hqs Hx0 Hy0 Ha) as H1.
    assert (t0 <> t) as Hne.
    { intros ->. apply Hq. rewrite Hqs. apply elem_of_list_here. }
    assert (t ∉ q.*2) as Hq1.
    { intros Hin. apply Hq. rewrite Hqs. by apply elem_of_list_further. }
    pose proof (exec_asteps (Some t0) t0 _ H1) as St. pose proof (reach_fresh _ _ _ _ _ H1) as F1.
    set (s1 := popped w t0 x0 q s) in *.
    assert (exists l, s_log (exec_task E t0 s1).2 = l ++ s_log s1 /\
      ((exists x', s_tis (exec_task E t0 s1).2 !! t = Some x' /\ ti_inst x' = ti_inst x /\ ti_task x' = ti_task x /\
        (ti_status x' = ti_status x \/ EvTaskUpd (ti_inst x) (t_id (ti_task x)) (ti_status x') ∈ l)) /\
       (t ∈ (s_queue (exec_task E t0 s1).2).*2 ->
         (exists j d' z, inst_is (exec_task E t0 s1).2 j d' (Some t) /\ (z = FCompleted \/ z = FFailed) /\ EvFlowStatus j z ∈ l) \/
         EvTaskUpd (ti_inst x) (t_id (ti_task x)) TReady ∈ l))) as (l & Hl & _ & HQ).
    { apply (asteps_ind2 (Some t0) s1 (fun l s' =>
        (exists x', s_tis s' !! t = Some x' /\ ti_inst x' = ti_inst x /\ ti_task x' = ti_task x /\
          (ti_status x' = ti_status x \/ EvTaskUpd (ti_inst x) (t_id (ti_task x)) (ti_status x') ∈ l)) /\
        (t ∈ (s_queue s').*2 ->
         (exists j d' z, inst_is s' j d' (Some t) /\ (z = FCompleted \/ z = FFailed) /\ EvFlowStatus j z ∈ l) \/
         EvTaskUpd (ti_inst x) (t_id (ti_task x)) TReady ∈ l))); [done| | | |exact St].
      - split; [exists x; split_and!; [exact Hx|done|done|by left]|]. intros Hin. done.
      - intros l a b F Hl [(x' & Hx' & Hi & Ht & Hs) HQ] S1 Hb. pose proof (astep_grows _ _ _ _ S1) as G. split.
        + destruct S1; try (exists x'; done); try (by apply (f_equal length) in Hb; simpl in Hb; lia).
          all: eexists; split; [by apply p_ti_lookup|].
          all: destruct (decide _) as [->|]; [|done].
          all: try (destruct (H0 x') as (-> & -> & ->)); done.
        + intros Hin. destruct (astep_queue _ _ _ _ S1) as [(Hqq & _)|(t2 & x2 & -> & _)].
          * rewrite Hqq in Hin. destruct (HQ Hin) as [(j & d' & z & Hj & Hz & He)|He]; [left|by right].
            exists j, d', z. eauto using inst_is_grows.
          * apply (f_equal length) in Hb. simpl in Hb. lia.
      - intros l a b e F Hl [(x' & Hx' & Hi & Ht & Hs) HQ] S1 Hb. pose proof (astep_grows _ _ _ _ S1) as G.
        assert (forall z', (ti_status x' = ti_status x \/ EvTaskUpd (ti_inst x) (t_id (ti_task x)) (ti_status x') ∈ l) ->
          ti_status x' = ti_status x \/ EvTaskUpd (ti_inst x) (t_id (ti_task x)) (ti_status x') ∈ z' :: l) as Hw.
        { intros z' [?|?]; [by left|right; by apply elem_of_list_further]. }
        split.
        + pose proof (ti_is_grows _ _ _ _ _ G (ti_is_intro _ _ _ Hx')) as (x2 & Hx2 & Hi2 & Ht2).
          exists x2. split_and!; [done|congruence|congruence|].
          destruct (decide (ti_status x2 = ti_status x')) as [He|He]; [rewrite He; by apply Hw|].
          right. destruct S1; cbn in Hb; try (injection Hb as <-); try (by apply (f_equal length) in Hb; simpl in Hb; lia);
            cbn in Hx2; try (rewrite Hx' in Hx2; injection Hx2 as <-; done).
          * (* tnew *) rewrite lookup_insert_ne in Hx2; [rewrite Hx' in Hx2; injection Hx2 as <-; done|]. congruence.
          * destruct (decide (t1 = t)) as [->|]; [|rewrite lookup_alter_ne in Hx2 by done; congruence].
            rewrite lookup_alter, Hx' in Hx2. injection Hx2 as <-. simpl. assert (x1 = x') as -> by congruence.
            rewrite Hi, Ht. apply elem_of_list_here.
          * destruct (decide (t1 = t)) as [->|]; [|rewrite lookup_alter_ne in Hx2 by done; congruence].
            rewrite lookup_alter, Hx' in Hx2. injection Hx2 as <-. simpl. assert (x1 = x') as -> by congruence.
            rewrite Hi, Ht. apply elem_of_list_here.
          * destruct (decide (t1 = t)) as [->|]; [|rewrite lookup_alter_ne in Hx2 by done; congruence].
            rewrite lookup_alter, Hx' in Hx2. injection Hx2 as <-. simpl. assert (x1 = x') as -> by congruence.
            rewrite Hi, Ht. apply elem_of_list_here.
          * destruct (decide (t1 = t)) as [->|]; [|rewrite lookup_alter_ne in Hx2 by done; congruence].
            rewrite lookup_alter, Hx' in Hx2. injection Hx2 as <-. simpl. assert (x1 = x') as -> by congruence.
            rewrite Hi, Ht. apply elem_of_list_here.
          * destruct (decide (t1 = t)) as [->|]; [|rewrite lookup_alter_ne in Hx2 by done; congruence].
            rewrite lookup_alter, Hx' in Hx2. injection Hx2 as <-. simpl. assert (x1 = x') as -> by congruence.
            rewrite Hi, Ht. apply elem_of_list_here.
        + intros Hin.
          assert (t ∈ (s_queue a).*2 -> (exists j d' z, inst_is b j d' (Some t) /\ (z = FCompleted \/ z = FFailed) /\ EvFlowStatus j z ∈ e :: l) \/
            EvTaskUpd (ti_inst x) (t_id (ti_task x)) TReady ∈ e :: l) as Hold.
          { intros Hin'. destruct (HQ Hin') as [(j & d' & z & Hj & Hz & He)|He]; [left|right; by apply elem_of_list_further].
            exists j, d', z. split_and!; [by eapply inst_is_grows|done|by apply elem_of_list_further]. }
          destruct (astep_queue _ _ _ _ S1) as [(Hqq & _)|(t2 & x2 & -> & Hx2 & Hc)].
          * rewrite Hqq in Hin. by apply Hold.
          * cbn in Hin. rewrite fmap_app in Hin. apply elem_of_app in Hin as [Hin|Hin]; [by apply Hold|].
            simpl in Hin. apply elem_of_list_singleton in Hin. subst t2. rewrite Hx' in Hx2. injection Hx2 as <-.
            destruct Hc as [(_ & _ & _ & _ & Hr)|[Hc|(j & d' & Hj & _ & Hz)]].
            -- right. apply elem_of_list_further. destruct Hs as [Hs|Hs]; [congruence|]. by rewrite Hr in Hs.
            -- congruence.
            -- left. assert (exists z, (z = FCompleted \/ z = FFailed) /\ lately a (EvFlowStatus j z)) as (z & Hz' & Hlt).
               { destruct Hz; eauto. }
               exists j, d', z. split_and!; [by eapply inst_is_grows|done|]. apply elem_of_list_further.
               eapply lately_new; [exact Hl|eauto|done|done]. }
    exists (EvQDel w (ti_inst x0) (t_id (ti_task x0)) :: rev l). split.
    - unfold trace. rewrite Hl. subst s1. cbn. rewrite rev_app_distr. simpl. by rewrite <- !app_assoc.
    - destruct (HQ Hq') as [(j & d' & z & (y & Hy & _ & Hh) & Hz & He)|He].
      + left. exists j, y, z. split_and!; [done..|]. apply elem_of_list_further. by apply in_rev_elem.
      + right. apply elem_of_list_further. by apply in_rev_elem.
  Qed.

  (** Attributes of other flows and data of other task instances. *)
  Lemma astep_attrs t0 a b i0 tk j y :
    astep E (Some t0) a b -> ti_is a t0 i0 tk -> s_insts a !! j = Some y -> i_status y <> FNotStarted ->
    exists y', s_insts b !! j = Some y' /\ i_status y' <> FNotStarted /\ (forall k, j <> i0 \/ ~ named_for E (t_id tk) k -> i_attrs y' !! k = i_attrs y !! k).
  Proof.
    intros St Ht Hy Hst.
    assert (forall i f, (forall y0, i_status (f y0) = i_status y0 \/ i_status (f y0) <> FNotStarted) ->
      (j = i -> forall k, j <> i0 \/ ~ named_for E (t_id tk) k -> i_attrs (f y) !! k = i_attrs y !! k) ->
      exists y', s_insts (p_inst i f a) !! j = Some y' /\ i_status y' <> FNotStarted /\ (forall k, j <> i0 \/ ~ named_for E (t_id tk) k -> i_attrs y' !! k = i_attrs y !! k)) as Hi.
    { intros i f H1 H2. cbn. destruct (decide (i = j)) as [->|Hne].
      - exists (f y). rewrite lookup_alter, Hy. split_and!; [done| |auto].
        destruct (H1 y) as [-> | ?]; done.
      - exists y. by rewrite lookup_alter_ne. }
    destruct St; try (exists y; done);
      try (apply Hi; [intros; (by left) || (by right)|done]; fail).
    - (* S_set *) apply Hi; [intros; by left|]. intros -> k Hne. rewrite Hy in H. injection H as <-.
      destruct H0 as [(t & tk' & [= <-] & Ht' & Hm)|[? _]]; [|done].
      destruct (ti_is_fun2 _ _ _ _ _ _ Ht Ht') as [<- <-]. cbn. apply lookup_union_r.
      destruct (m !! k) as [v|] eqn:Hk; [|done]. destruct Hne as [Hne|Hne]; [done|]. destruct Hne. by eapply Hm.
    - (* S_idata *) apply Hi; [intros y0|intros _ k _].
      + destruct (H y0) as (_ & _ & -> & _). by left.
      + by destruct (H y) as (_ & _ & _ & _ & _ & _ & _ & -> & _).
    - (* S_sub *) exists y. split; [|done]. cbn [s_insts p_sub p_log set_s_log set_s_insts].
      rewrite lookup_insert_ne; [done|]. congruence.
  Qed.
  Lemma isolated c s j y :
    reach c s -> s_insts s !! j = Some y -> i_status y <> FNotStarted ->
    exists new y', trace (do_step E s).2 = trace s ++ new /\ s_insts (do_step E s).2 !! j = Some y' /\
      (i_attrs y' = i_attrs y \/ exists w id later, new = EvQDel w j id :: later /\ forall k, ~ named_for E id k -> i_attrs y' !! k = i_attrs y !! k).
  Proof.
    intros H Hy Hst. destruct (do_step_cases E s) as [Hd|(w & t0 & q & x0 & y0 & Hqs & Hx0 & Hy0 & Ha & Hd)]; rewrite Hd.
    { exists [], y. split_and!; [by rewrite app_nil_r|done|by left]. }
    clear Hd. pose proof (popped_reach _ _ _ _ _ _ _ H Hqs Hx0 Hy0 Ha) as H1.
    pose proof (exec_asteps (Some t0) t0 _ H1) as St. pose proof (reach_fresh _ _ _ _ _ H1) as F1.
    set (s1 := popped w t0 x0 q s) in *.
    assert (exists l, s_log (exec_task E t0 s1).2 = l ++ s_log s1 /\
      exists y', s_insts (exec_task E t0 s1).2 !! j = Some y' /\ i_status y' <> FNotStarted /\
        (forall k, j <> ti_inst x0 \/ ~ named_for E (t_id (ti_task x0)) k -> i_attrs y' !! k = i_attrs y !! k) /\ ti_is (exec_task E t0 s1).2 t0 (ti_inst x0) (ti_task x0))
      as (l & Hl & y' & Hy' & _ & HQ & _).
    { apply (asteps_ind2 (Some t0) s1 (fun _ s' => exists y', s_insts s' !! j = Some y' /\ i_status y' <> FNotStarted /\
        (forall k, j <> ti_inst x0 \/ ~ named_for E (t_id (ti_task x0)) k -> i_attrs y' !! k = i_attrs y !! k) /\ ti_is s' t0 (ti_inst x0) (ti_task x0))); [done| | | |exact St].
      - exists y. split_and!; [done..|]. by apply ti_is_intro.
      - intros l a b F Hl (y' & Hy' & Hs' & Ha' & Ht') S1 _.
        destruct (astep_attrs _ _ _ _ _ _ _ S1 Ht' Hy' Hs') as (y2 & Hy2 & Hs2 & Ha2). exists y2.
        split_and!; [done..| |eauto using ti_is_grows, astep_grows]. intros k Hne. rewrite Ha2; auto.
      - intros l a b e F Hl (y' & Hy' & Hs' & Ha' & Ht') S1 _.
        destruct (astep_attrs _ _ _ _ _ _ _ S1 Ht' Hy' Hs') as (y2 & Hy2 & Hs2 & Ha2). exists y2.
        split_and!; [done..| |eauto using ti_is_grows, astep_grows]. intros k Hne. rewrite Ha2; auto. }
    exists (EvQDel w (ti_inst x0) (t_id (ti_task x0)) :: rev l), y'. split_and!; [|done|].
    - unfold trace. rewrite Hl. subst s1. cbn. rewrite rev_app_distr. simpl. by rewrite <- !app_assoc.
    - destruct (decide (j = ti_inst x0)) as [->|Hne]; [right|left; apply map_eq; intros k; by apply HQ; left]. eauto 10.
  Qed.

  Lemma astep_other t0 a b t x :
    fresh a -> astep E (Some t0) a b -> t <> t0 -> s_tis a !! t = Some x ->
    exists x', s_tis b !! t = Some x' /\ ti_in x' = ti_in x /\ ti_wd x' = ti_wd x /\
      (ti_out x' = ti_out x \/ exists j d', inst_is a j d' (Some t) /\ lately a (EvFlowStatus j FCompleted)).
  Proof.
    intros F St Hne Hx.
    assert (forall t1 f, (t1 = t -> forall x, ti_in (f x) = ti_in x /\ ti_wd (f x) = ti_wd x) ->
      (t1 = t -> (forall x, ti_out (f x) = ti_out x) \/
        exists j d', inst_is a j d' (Some t) /\ lately a (EvFlowStatus j FCompleted)) ->
      exists x', s_tis (p_ti t1 f a) !! t = Some x' /\ ti_in x' = ti_in x /\ ti_wd x' = ti_wd x /\
      (ti_out x' = ti_out x \/ exists j d', inst_is a j d' (Some t) /\ lately a (EvFlowStatus j FCompleted))) as Hi.
    { intros t1 f H1 H2. eexists. split; [by apply p_ti_lookup|]. destruct (decide (t1 = t)) as [->|]; [|by auto].
      destruct (H1 eq_refl x) as [-> ->]. split_and!; [done|done|]. destruct (H2 eq_refl) as [H2'|H2']; auto. }
    destruct St; try (exists x; by auto); try (apply Hi; [done|intros; by left]; fail).
    - apply Hi; intros ->; destruct H0 as [[= <-]|H0]; try done.
      + intros x0. destruct (H0 x0) as (-> & _ & -> & _). done.
      + left. intros x0. by destruct (H0 x0) as (_ & -> & _ & _).
    - apply Hi; [done|]. intros ->. right. exists i, (i_def y). split; [|done]. by exists y.
    - exists x. split; [|by auto]. cbn. rewrite lookup_insert_ne; [done|]. congruence.
  Qed.

  Lemma isolated_task c s t x :
    reach c s -> s_tis s !! t = Some x ->
    exists new x', trace (do_step E s).2 = trace s ++ new /\ s_tis (do_step E s).2 !! t = Some x' /\
      ((exists w later, new = EvQDel w (ti_inst x) (t_id (ti_task x)) :: later /\
          exists q, s_queue s = (w, t) :: q) \/
       (ti_in x' = ti_in x /\ ti_wd x' = ti_wd x /\
        (ti_out x' = ti_out x \/
         exists j y, s_insts (do_step E s).2 !! j = Some y /\ i_host y = Some t /\ EvFlowStatus j FCompleted ∈ new))).
  Proof.
    intros H Hx. destruct (do_step_cases E s) as [Hd|(w & t0 & q & x0 & y0 & Hqs & Hx0 & Hy0 & Ha & Hd)]; rewrite Hd.
    { exists [], x. split_and!; [by rewrite app_nil_r|done|]. right. auto. }
    clear Hd. pose proof (popped_reach _ _ _ _ _ _ _ H Hqs Hx0 Hy0 Ha) as H1.
    pose proof (exec_asteps (Some t0) t0 _ H1) as St. pose proof (reach_fresh _ _ _ _ _ H1) as F1.
    set (s1 := popped w t0 x0 q s) in *.
    assert (exists l, s_log (exec_task E t0 s1).2 = l ++ s_log s1 /\
      exists x', s_tis (exec_task E t0 s1).2 !! t = Some x' /\ (t <> t0 -> ti_in x' = ti_in x /\ ti_wd x' = ti_wd x /\
        (ti_out x' = ti_out x \/ exists j d', inst_is (exec_task E t0 s1).2 j d' (Some t) /\ EvFlowStatus j FCompleted ∈ l)))
      as (l & Hl & x' & Hx' & HQ).
    { apply (asteps_ind2 (Some t0) s1 (fun l s' => exists x', s_tis s' !! t = Some x' /\
        (t <> t0 -> ti_in x' = ti_in x /\ ti_wd x' = ti_wd x /\
        (ti_out x' = ti_out x \/ exists j d', inst_is s' j d' (Some t) /\ EvFlowStatus j FCompleted ∈ l))));
        [done| | | |exact St].
      - exists x. split; [done|]. auto.
      - intros l a b F Hl (x' & Hx' & HQ) S1 _. pose proof (astep_grows _ _ _ _ S1) as G.
        destruct (decide (t = t0)) as [->|Hne].
        + destruct (ti_is_grows _ _ _ _ _ G (ti_is_intro _ _ _ Hx')) as (x2 & Hx2 & _). by exists x2.
        + destruct (astep_other _ _ _ _ _ F S1 Hne Hx') as (x2 & Hx2 & Hin & Hwd & Ho). exists x2. split; [done|].
          intros _. destruct (HQ Hne) as (Hin' & Hwd' & Ho'). split_and!; [congruence..|].
          destruct Ho as [-> |(j & d' & Hj & Hlt)].
          * destruct Ho' as [?|(j & d' & Hj & He)]; [by left|right]. exists j, d'. eauto using inst_is_grows.
          * right. exists j, d'. split; [by eapply inst_is_grows|]. eapply lately_new; [exact Hl|eauto|done|done].
      - intros l a b e F Hl (x' & Hx' & HQ) S1 _. pose proof (astep_grows _ _ _ _ S1) as G.
        destruct (decide (t = t0)) as [->|Hne].
        + destruct (ti_is_grows _ _ _ _ _ G (ti_is_intro _ _ _ Hx')) as (x2 & Hx2 & _). by exists x2.
        + destruct (astep_other _ _ _ _ _ F S1 Hne Hx') as (x2 & Hx2 & Hin & Hwd & Ho). exists x2. split; [done|].
          intros _. destruct (HQ Hne) as (Hin' & Hwd' & Ho'). split_and!; [congruence..|].
          destruct Ho as [-> |(j & d' & Hj & Hlt)].
          * destruct Ho' as [?|(j & d' & Hj & He)]; [by left|right]. exists j, d'.
            split; [by eapply inst_is_grows|by apply elem_of_list_further].
          * right. exists j, d'. split; [by eapply inst_is_grows|]. apply elem_of_list_further.
            eapply lately_new; [exact Hl|eauto|done|done]. }
    exists (EvQDel w (ti_inst x0) (t_id (ti_task x0)) :: rev l), x'. split_and!; [|done|].
    - unfold trace. rewrite Hl. subst s1. cbn. rewrite rev_app_distr. simpl. by rewrite <- !app_assoc.
    - destruct (decide (t = t0)) as [->|Hne]; [left|right].
      + rewrite Hx in Hx0. injection Hx0 as <-. eauto.
      + destruct (HQ Hne) as (-> & -> & [->|(j & d' & (y & Hy & _ & Hh) & He)]); split_and!; auto.
        right. exists j, y. split_and!; [done..|]. apply elem_of_list_further. by apply in_rev_elem.
  Qed.

  (** ** The same for states between steps *)
  Lemma queue_is_fifo s : visited E d uri s ->
    scheduled s = executed s ++ pending s /\
    (fun p => p.1.1) <$> scheduled s = seq 1 (length (scheduled s)).
  Proof. intros [c H]%visited_reach. by destruct (inv_fifo _ _ _ _ _ H) as (? & _ & ?). Qed.
  Lemma subflows_numbered s : visited E d uri s -> subflow_ids s = seq 1 (length (subflow_ids s)).
  Proof. intros [c H]%visited_reach. rewrite (inv_subs _ _ H). by rewrite seq_length. Qed.
  Lemma resumed_by_subflow s t x :
    running E d uri s -> s_tis s !! t = Some x -> ti_status x <> TReady -> ~ queued s t ->
    queued (do_step E s).2 t ->
    exists new, trace (do_step E s).2 = trace s ++ new /\
     ((exists j y z, s_insts (do_step E s).2 !! j = Some y /\ i_host y = Some t /\
         (z = FCompleted \/ z = FFailed) /\ EvFlowStatus j z ∈ new) \/
      EvTaskUpd (ti_inst x) (t_id (ti_task x)) TReady ∈ new).
  Proof. intros [c H]%running_reach. by eapply resumed. Qed.
  Lemma never_executed s i id ins it y c :
    visited E d uri s -> s_insts s !! i = Some y ->
    (task_icpt E id = Some c /\ tc_skip c = true) \/
    (task_icpt E (d_name (i_def y) +:+ "-" +:+ id) = Some c /\ tc_skipexec c = true) ->
    EvAct i id ins it ∉ trace s.
  Proof.
    intros V Hy [[H1 H2]|[H1 H2]]; [by eapply skipped_never_run|by eapply mocked_never_run].
  Qed.
  Lemma attributes_isolated s j y :
    running E d uri s -> s_insts s !! j = Some y -> i_status y <> FNotStarted ->
    exists new y', trace (do_step E s).2 = trace s ++ new /\ s_insts (do_step E s).2 !! j = Some y' /\
      (i_attrs y' = i_attrs y \/ exists w id later, new = EvQDel w j id :: later /\ forall k, ~ named_for E id k -> i_attrs y' !! k = i_attrs y !! k).
  Proof. intros [c H]%running_reach. by eapply isolated. Qed.
  Lemma tasks_isolated s t x :
    running E d uri s -> s_tis s !! t = Some x ->
    exists new x', trace (do_step E s).2 = trace s ++ new /\ s_tis (do_step E s).2 !! t = Some x' /\
      ((exists w later, new = EvQDel w (ti_inst x) (t_id (ti_task x)) :: later /\
          exists q, s_queue s = (w, t) :: q) \/
       (ti_in x' = ti_in x /\ ti_wd x' = ti_wd x /\
        (ti_out x' = ti_out x \/
         exists j y, s_insts (do_step E s).2 !! j = Some y /\ i_host y = Some t /\ EvFlowStatus j FCompleted ∈ new))).
  Proof. intros [c H]%running_reach. by eapply isolated_task. Qed.
  Lemma ready_before_evaluation s before i id ins it later :
    visited E d uri s -> trace s = before ++ EvAct i id ins it :: later ->
    EvTaskUpd i id TReady ∈ before /\
    exists b1 b2 w, before = b1 ++ EvQDel w i id :: b2 /\ forall w' i' id', EvQDel w' i' id' ∉ b2.
  Proof. intros V H. split; [by eapply eval_after_ready|by eapply eval_in_item]. Qed.
End Life.
