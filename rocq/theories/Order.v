(** Order of events in all runs (proofs; no Go counterpart). *)
From Verif Require Export Events.
Local Open Scope Z_scope.

Lemma ti_is_fun2 s t i i' tk tk' : ti_is s t i tk -> ti_is s t i' tk' -> i = i' /\ tk = tk'.
Proof. intros (x & Hx & <- & <-) (x' & Hx' & <- & <-). split; congruence. Qed.
Lemma inst_is_fun2 s i d d' h h' : inst_is s i d h -> inst_is s i d' h' -> d = d' /\ h = h'.
Proof. intros (x & Hx & <- & <-) (x' & Hx' & <- & <-). split; congruence. Qed.
Lemma tc_last {A} (R : relation A) a b : tc R a b -> exists c, R c b /\ rtc R a c.
Proof.
  intros H. induction H as [a b H|a b c H _ (e & He & Hr)].
  - exists a. split; [done|constructor].
  - exists e. split; [done|]. by eapply rtc_l.
Qed.

Section Order.
  Context (E : env) (d : defn) (uri : string).
  Notation reach := (reach E d uri).

  Lemma inv_graph : built d -> built_env E ->
    forall c s, reach c s -> forall i d' h, inst_is s i d' h -> graph_ok d'.
  Proof.
    intros Hd HE c s H i d' h Hi. eapply (inv_defs E d uri graph_ok); eauto using built_graph.
  Qed.

  (** *** Links are decided by their source *)

  (** When link [k] was set its source task had come to its end and was ready before. *)
  Lemma linkset_source : built d -> built_env E -> forall c s i d' h l z l1 l2,
    reach c s -> inst_is s i d' h -> l ∈ all_links d' ->
    s_log s = l1 ++ EvLinkSet i (l_id l) z :: l2 ->
    exists c0 s0 t tk, reach c0 s0 /\ s_log s0 = l2 /\ ti_is s0 t i tk /\ tk ∈ all_tasks d' /\
      t_id tk = l_from l /\ t_eh tk = l_eh l /\ rdy s0 t /\ finished s0 i (l_from l) /\
      inst_is s0 i d' h /\ decision z.
  Proof.
    intros Hd HE c s i d' h l z l1 l2 H Hi Hl Hlog.
    destruct (history_ev _ _ _ _ _ _ _ _ H Hlog) as (c0 & s0 & c1 & s1 & H0 & St & E0 & E1 & Hev & G); [done|].
    destruct Hev as (t & x & y & k & Hx & <- & Hy & _ & Hk & Hkt & [Hfin Hc] & Hz & _).
    pose proof (ti_is_intro _ _ _ Hx) as Ht.
    destruct (inv_task _ _ _ _ _ H0 _ _ _ Ht) as (d0 & h0 & Hi0 & Htk & _).
    assert (d0 = d' /\ h0 = h) as [-> ->].
    { assert (inst_is s (ti_inst x) d0 h0) as Hi0'.
      { eapply inst_is_grows; [|exact Hi0]. eapply grows_trans; [|exact G]. by eapply rstep_grows. }
      destruct Hi as (y1 & Hy1 & <- & <-), Hi0' as (y2 & Hy2 & <- & <-). split; congruence. }
    assert (graph_ok d') as Gd by (by eapply (inv_graph Hd HE _ _ H0)).
    pose proof (proj1 (graph_to _ _ _ Gd Htk) Hkt) as (Hkl & Hkf & Hke).
    assert (k = l) as -> by by eapply graph_link_inj.
    exists c0, s0, t, (ti_task x). split_and!; try done.
    - destruct Hc as [->|Hr]; [|done]. apply rdyT_rdy.
      destruct (inv_rdy _ _ _ _ _ H0) as [I1 _]. by apply I1.
    - by rewrite Hkf.
  Qed.

  (** *** Nothing behind a cycle ever becomes ready *)
  Lemma behind_pred d' tk : graph_ok d' -> tk ∈ all_tasks d' -> behind_cycle d' tk ->
    exists l, l ∈ t_from tk /\
      forall tk', tk' ∈ all_tasks d' -> t_id tk' = l_from l -> t_eh tk' = l_eh l -> behind_cycle d' tk'.
  Proof.
    intros Gd Htk (m & Hm & Hr).
    assert (exists a, edge d' a (t_eh tk, t_id tk) /\ rtc (edge d') m a) as (a & Ha & Hma).
    { apply rtc_inv_r in Hr as [->|(a & Hr & Ha)]; [|eauto].
      by apply tc_last. }
    destruct Ha as (l & Hl & He1 & Hf & He2 & Ht). simpl in *. exists l. split.
    - apply (graph_from d'); [done..|]. done.
    - intros tk' Htk' Hid Heh. exists m. split; [done|].
      destruct a as [a1 a2]. simpl in *. by rewrite Heh, Hid, He1, Hf.
  Qed.

  Lemma not_ready_behind : built d -> built_env E -> forall n c s i tk d' h,
    (length (s_log s) <= n)%nat -> reach c s -> inst_is s i d' h -> tk ∈ all_tasks d' ->
    (forall l, l ∈ t_from tk -> decided s i l) -> ~ behind_cycle d' tk.
  Proof.
    intros Hd HE. induction n as [|n IH]; intros c s i tk d' h Hn H Hi Htk Hdec Hb;
      assert (graph_ok d') as Gd by (by eapply (inv_graph Hd HE _ _ H));
      destruct (behind_pred d' tk Gd Htk Hb) as (l & Hl & Hpred);
      destruct (Hdec l Hl) as (z & _ & Hz); apply logged_split in Hz as (l1 & l2 & Hz).
    - rewrite Hz, app_length in Hn. simpl in Hn. lia.
    - assert (l ∈ all_links d') as Hl' by by apply (graph_from d' tk) in Hl as [? _].
      destruct (linkset_source Hd HE _ _ _ _ _ _ _ _ _ H Hi Hl' Hz)
        as (c0 & s0 & t0 & tk0 & H0 & E0 & Ht0 & Htk0 & Hid0 & Heh0 & Hr & _ & Hi0 & _).
      destruct Hr as (i' & tk' & Ht0' & Hdec0). destruct (ti_is_fun2 _ _ _ _ _ _ Ht0 Ht0') as [<- <-].
      eapply (IH c0 s0 i tk0 d' h); try done.
      + rewrite E0. rewrite Hz, app_length in Hn. simpl in Hn. lia.
      + by apply Hpred.
  Qed.

  (** *** C01 *)

  Lemma eval_after_links s before i id ins it later :
    built d -> built_env E -> visited E d uri s ->
    trace s = before ++ EvAct i id ins it :: later ->
    exists y tk, s_insts s !! i = Some y /\ tk ∈ all_tasks (i_def y) /\ t_id tk = id /\
      (forall l, l ∈ t_from tk ->
         exists b1 b2 z z', before = b1 ++ EvLinkSet i (l_id l) z :: b2 /\ decision z /\
           EvTaskUpd i (l_from l) z' ∈ b1 /\ ends z') /\
      (t_from tk = [] \/ exists l, l ∈ t_from tk /\ EvLinkSet i (l_id l) LTrue ∈ before).
  Proof.
    intros Hd HE V Ht. apply visited_reach in V as [c H]. pose proof (trace_split _ _ _ _ Ht) as Hl.
    destruct (history_ev _ _ _ _ _ _ _ _ H Hl) as (c0 & s0 & c1 & s1 & H0 & St & E0 & E1 & Hev & G); [done|].
    destruct Hev as (t & x & y0 & Hc & _ & Hx & Hxi & Hxid & _).
    assert (grows s0 s) as G0 by (eapply grows_trans; [by eapply rstep_grows|exact G]).
    destruct (inv_rdy _ _ _ _ _ H0) as [I1 _]. destruct (I1 t Hc) as (i' & tk & Hti & Hdec & Htrue).
    assert (ti_is s0 t i (ti_task x)) as Hti' by (exists x; done).
    destruct (ti_is_fun2 _ _ _ _ _ _ Hti Hti') as [-> ->].
    destruct (inv_task _ _ _ _ _ H0 _ _ _ Hti) as (d' & h & Hi & Htk & _).
    pose proof (inst_is_grows _ _ _ _ _ G0 Hi) as (y & Hy & Hyd & _).
    assert (graph_ok d') as Gd by (by eapply (inv_graph Hd HE _ _ H0)).
    exists y, (ti_task x). rewrite Hyd. split_and!; try done.
    - intros l Hlf. destruct (Hdec l Hlf) as (z & Hz & Hlog).
      assert (l ∈ all_links d') as Hl' by by apply (graph_from d' (ti_task x)) in Hlf as [? _].
      apply logged_split in Hlog as (l1 & l2 & Hlog).
      destruct (linkset_source Hd HE _ _ _ _ _ _ _ _ _ H0 Hi Hl' Hlog)
        as (c2 & s2 & t2 & tk2 & H2 & E2 & _ & _ & _ & _ & _ & (z' & Hz' & Hfin) & _).
      exists (rev l2), (rev l1), z, z'. split_and!; try done.
      + rewrite E0 in Hlog. apply (f_equal (@rev _)) in Hlog. rewrite rev_involutive in Hlog.
        rewrite Hlog, rev_app_distr. simpl. by rewrite <- app_assoc.
      + unfold logged in Hfin. rewrite E2 in Hfin. by apply elem_of_list_In, in_rev, elem_of_list_In in Hfin || by rewrite elem_of_list_In, <- in_rev, <- elem_of_list_In.
    - destruct Htrue as [?|(l & Hlf & Hlog)]; [by left|right]. exists l. split; [done|].
      unfold logged in Hlog. rewrite E0 in Hlog.
      apply elem_of_list_In. apply in_rev. by apply elem_of_list_In.
  Qed.

  (** *** C05 *)

  Lemma cycle_never_runs s i y id :
    built d -> built_env E -> visited E d uri s -> s_insts s !! i = Some y ->
    (forall tk, tk ∈ all_tasks (i_def y) -> t_id tk = id -> behind_cycle (i_def y) tk) ->
    (forall ins it, EvAct i id ins it ∉ trace s) /\ (forall z, EvTaskUpd i id z ∈ trace s -> z = TEntered).
  Proof.
    intros Hd HE V Hy Hb. apply visited_reach in V as [c H].
    assert (forall c0 s0 t, reach c0 s0 -> grows s0 s -> forall i' tk, ti_is s0 t i' tk -> i' = i -> t_id tk = id ->
              rdy s0 t -> False) as Hno.
    { intros c0 s0 t H0 G i' tk Ht Ei Hid (i'' & tk' & Ht' & Hdec). subst i'.
      destruct (ti_is_fun2 _ _ _ _ _ _ Ht Ht') as [<- <-].
      destruct (inv_task _ _ _ _ _ H0 _ _ _ Ht) as (d' & h & Hi & Htk & _).
      pose proof (inst_is_grows _ _ _ _ _ G Hi) as (y' & Hy' & <- & _).
      assert (y' = y) as -> by congruence.
      eapply (not_ready_behind Hd HE (length (s_log s0)) c0 s0 i tk); eauto. }
    split.
    - intros ins it Hin. apply elem_of_list_split in Hin as (b & a & Ht). apply trace_split in Ht.
      destruct (history_ev _ _ _ _ _ _ _ _ H Ht) as (c0 & s0 & c1 & s1 & H0 & St & E0 & E1 & Hev & G); [done|].
      destruct Hev as (t & x & y0 & Hc & _ & Hx & Hxi & Hxid & _).
      destruct (inv_rdy _ _ _ _ _ H0) as [I1 _].
      eapply (Hno c0 s0 t H0); [eapply grows_trans; [by eapply rstep_grows|exact G]| |exact Hxi|exact Hxid|].
      + by exists x.
      + by apply rdyT_rdy, I1.
    - intros z Hin. apply elem_of_list_split in Hin as (b & a & Ht). apply trace_split in Ht.
      destruct (history_ev _ _ _ _ _ _ _ _ H Ht) as (c0 & s0 & c1 & s1 & H0 & St & E0 & E1 & Hev & G); [done|].
      pose proof (reach_rstep _ _ _ _ _ _ _ H0 St) as H1.
      assert (grows s0 s) as G0 by (eapply grows_trans; [by eapply rstep_grows|exact G]).
      destruct Hev as (t & x & Hx & Hxi & Hxid & Es & _ & Hk).
      destruct (decide (z = TEntered)) as [|Hz]; [done|exfalso].
      destruct (reach_fresh _ _ _ _ _ H1) as (_ & _ & _ & _ & _ & F).
      assert (s_tis s1 !! t = Some (set_ti_status z x)) as Hx1.
      { rewrite Es. cbn. by rewrite lookup_alter, Hx. }
      destruct (F _ _ Hx1) as [F1 F2]. cbn in F1, F2.
      assert (rdy s1 t) as Hr.
      { destruct Hk as [[? _]|[[[->| ->] _]|[(-> & _)|[_ Hc]]]]; [done| | | |].
        - by apply rdyT_rdy, F1.
        - by apply F2.
        - by apply F2.
        - apply (rdy_grows s0); [by eapply rstep_grows|]. apply rdyT_rdy.
          destruct (inv_rdy _ _ _ _ _ H0) as [I1 _]. by apply I1. }
      eapply (Hno c1 s1 t H1 G i (ti_task x)); eauto. by eexists.
  Qed.

  (** *** C09 *)

  Lemma omap_grows {A B} (f g : A -> option B) (l : list A) :
    (forall x, x ∈ l -> f x = g x) -> omap f l = omap g l.
  Proof.
    induction l as [|x l IH]; intros Hf; [done|]. simpl. rewrite (Hf x) by apply elem_of_list_here.
    assert (omap f l = omap g l) as Hl by (apply IH; intros y Hy; apply Hf; by apply elem_of_list_further).
    destruct (g x); [f_equal|]; exact Hl.
  Qed.

  Definition fifo (s : st) : Prop :=
    scheduled s = executed s ++ pending s /\ length (scheduled s) = s_wictr s /\
    (fun p => p.1.1) <$> scheduled s = seq 1 (length (scheduled s)).

  Lemma trace_log e s s' : s_log s' = e :: s_log s -> trace s' = trace s ++ [e].
  Proof. intros Hl. unfold trace. rewrite Hl. done. Qed.

  Lemma inv_fifo c s : reach c s -> fifo s.
  Proof.
    revert c s. apply (reach_inv E d uri (fun c s => fifo s)).
    - done.
    - intros c s c' s' H _ (I1 & I2 & I3) St. pose proof (rstep_grows _ _ _ _ _ St) as G.
      destruct (inv_rdy _ _ _ _ _ H) as (_ & Iq & _).
      assert (forall p, p ∈ s_queue s ->
        (fun x => (p.1, ti_inst x, t_id (ti_task x))) <$> s_tis s !! p.2 =
        (fun x => (p.1, ti_inst x, t_id (ti_task x))) <$> s_tis s' !! p.2) as Hp.
      { intros [w t] Hin. destruct (Iq w t Hin) as (i & tk & (x & Hx & <- & <-) & _).
        destruct (ti_is_grows _ _ _ _ _ G (ti_is_intro _ _ _ Hx)) as (x' & Hx' & Hi' & Ht').
        simpl. rewrite Hx, Hx'. simpl. congruence. }
      assert ((s_log s' = s_log s \/ exists e, s_log s' = e :: s_log s /\
                 (forall w i id, e <> EvQAdd w i id) /\ forall w i id, e <> EvQDel w i id) ->
              s_queue s' = s_queue s -> s_wictr s' = s_wictr s -> fifo s') as Hsame.
      { intros Hl Hq Hw. assert (pending s' = pending s) as Ep.
        { unfold pending. rewrite Hq. symmetry. by apply omap_grows. }
        assert (scheduled s' = scheduled s /\ executed s' = executed s) as [E1 E2].
        { unfold scheduled, executed. destruct Hl as [Hl|(e & Hl & N1 & N2)].
          - unfold trace. by rewrite Hl.
          - rewrite (trace_log e s s' Hl), !omap_app. simpl.
            destruct e; simpl; rewrite ?app_nil_r; try done; naive_solver. }
        unfold fifo. rewrite E1, E2, Ep, Hw. done. }
      destruct St as [c s s' St| |c s w t q x y Hq Hx Hy Hst| |].
      + pose proof (rstep_log _ _ _ _ _ (RS_a _ _ _ _ St)) as Hl.
        destruct (astep_queue _ _ _ _ St) as [(Hq & Hw & Hn)|(t & x & -> & Hx & _)].
        * apply Hsame; [|done|done]. destruct Hl as [?|(e & Hl)]; [by left|right]. exists e.
          split_and!; [done|intros ??? ->; by eapply Hn|]. intros w i id ->.
          destruct (rstep_ev _ _ _ _ _ _ (RS_a _ _ _ _ St) Hl) as (t & q & x & y & _ & Hq' & _ & _ & _ & _ & _ & Es).
          rewrite Hq', Es in Hq. cbn in Hq. apply (f_equal length) in Hq. simpl in Hq. lia.
        * assert (trace (p_sched t x s) = trace s ++ [EvQAdd (S (s_wictr s)) (ti_inst x) (t_id (ti_task x))]) as Et by done.
          unfold fifo, scheduled, executed, pending. rewrite Et, !omap_app. cbn [s_queue p_sched p_log set_s_log s_wictr set_s_queue set_s_wictr].
          rewrite omap_app. simpl. rewrite Hx. simpl. rewrite app_nil_r.
          fold (scheduled s) (executed s) (pending s). split_and!.
          { by rewrite I1, <- app_assoc. }
          { rewrite app_length. simpl. lia. }
          { rewrite fmap_app, I3, app_length, seq_app. simpl. by rewrite I2. }
      + apply Hsame; [by left|done..].
      + set (e := EvQDel w (ti_inst x) (t_id (ti_task x))) in *.
        assert (trace (p_log e (set_s_queue q s)) = trace s ++ [e]) as Et by done.
        unfold fifo, scheduled, executed, pending. rewrite Et, !omap_app. simpl.
        rewrite app_nil_r. fold (scheduled s) (executed s). split_and!; [|done|done].
        rewrite I1. unfold pending at 1. rewrite Hq. simpl. rewrite Hx. simpl. by rewrite <- app_assoc.
      + apply Hsame; [|done|done]. right. eexists. split_and!; [done|done|done].
      + apply Hsame; [|done|done]. right. eexists. split_and!; [done|by intros ??? ->|by intros ??? ->].
  Qed.

  (** *** C32 *)

  Lemma skipped_never_run s i id ins it c :
    visited E d uri s -> task_icpt E id = Some c -> tc_skip c = true -> EvAct i id ins it ∉ trace s.
  Proof.
    intros V Hc Hs Hin. apply visited_reach in V as [c' H].
    apply elem_of_list_split in Hin as (b & a & Ht). apply trace_split in Ht.
    destruct (history_ev _ _ _ _ _ _ _ _ H Ht) as (c0 & s0 & c1 & s1 & H0 & St & E0 & E1 & Hev & G); [done|].
    destruct Hev as (t & x & y & _ & _ & _ & _ & _ & _ & _ & _ & [Hn _]). rewrite (Hn c Hc) in Hs. done.
  Qed.
  Lemma mocked_never_run s i id ins it y c :
    visited E d uri s -> s_insts s !! i = Some y ->
    task_icpt E (d_name (i_def y) +:+ "-" +:+ id) = Some c -> tc_skipexec c = true ->
    EvAct i id ins it ∉ trace s.
  Proof.
    intros V Hy Hc Hs Hin. apply visited_reach in V as [c' H].
    apply elem_of_list_split in Hin as (b & a & Ht). apply trace_split in Ht.
    destruct (history_ev _ _ _ _ _ _ _ _ H Ht) as (c0 & s0 & c1 & s1 & H0 & St & E0 & E1 & Hev & G); [done|].
    destruct Hev as (t & x & y0 & _ & _ & _ & _ & _ & _ & _ & Hy0 & [_ Hn]).
    assert (inst_is s i (i_def y0) (i_host y0)) as (y1 & Hy1 & Hyd & _).
    { eapply inst_is_grows; [eapply grows_trans; [by eapply rstep_grows|exact G]|]. by exists y0. }
    assert (y1 = y) as -> by congruence. rewrite Hyd in Hc. rewrite (Hn c Hc) in Hs. done.
  Qed.
End Order.
