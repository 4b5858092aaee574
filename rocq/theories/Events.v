(** What is known when an event is logged (proofs; no Go counterpart). *)
From Verif Require Export Inv.
Local Open Scope Z_scope.

(** The step from [s] (executing [c]) that logs [e] and leads to [s']. *)
Definition ev_cond (E : env) (c : option nat) (s : st) (e : event) (c' : option nat) (s' : st) : Prop :=
  match e with
  | EvFlowCreated => False
  | EvFlowStatus i z =>
      exists y, s_insts s !! i = Some y /\ s' = p_fstat i z s /\ c' = c /\
        ((z = FActive /\ i_status y = FNotStarted /\ i_host y = c) \/
         (z = FFailed /\ act_inst s c i) \/
         (z = FCompleted /\ act_inst s c i /\
            (i_force y = true \/
             (forall id t x, i_tasks y !! id = Some t -> s_tis s !! t = Some x -> TDone <= ti_status x))))
  | EvFlowDone => logged s (EvFlowStatus 0 FCompleted)
  | EvSubDone i => exists y t, s_insts s !! i = Some y /\ i_host y = Some t /\ logged s (EvFlowStatus i FCompleted)
  | EvSubCreated i uri pi host =>
      exists t x d n, c = Some t /\ c' = c /\ s_tis s !! t = Some x /\ e_def E n uri = DOk d /\
        s' = p_sub t x uri d s /\ i = S (s_sfctr s) /\ pi = ti_inst x /\ host = t_id (ti_task x) /\
        s_insts s !! i = None
  | EvSet i m tr =>
      s' = p_set tr i m s /\ c' = c /\ exists y, s_insts s !! i = Some y /\
        ((((exists t tk, c = Some t /\ ti_is s t i tk) \/ i_status y = FNotStarted /\ i_host y = c) /\
          (i_status y <> FNotStarted -> tr = e_track E)) \/
         (i = 0%nat /\ tr = e_track E))
  | EvTaskAdd i id =>
      exists y tk, s_insts s !! i = Some y /\ act_inst s c i /\ i_tasks y !! id = None /\
        tk ∈ all_tasks (i_def y) /\ t_act tk <> None /\ t_id tk = id /\ s' = p_tnew i tk s /\ c' = c /\
        s_tis s !! s_nti s = None
  | EvTaskUpd i id z =>
      exists t x, s_tis s !! t = Some x /\ ti_inst x = i /\ t_id (ti_task x) = id /\ s' = p_tstat t x z s /\
        c' = c /\
        ((z = TEntered /\ exists i' id', registered s i' id' t /\ act_inst s c i') \/
         ((z = TReady \/ z = TSkipped) /\ ti_status x = TEntered /\
            exists i' id' y, registered s i' id' t /\ act_inst s c i' /\ s_insts s !! ti_inst x = Some y /\
            scan_links (link_status y) (t_from (ti_task x))
              (match t_from (ti_task x) with [] => false | _ => true end) = Some (bool_decide (z = TSkipped))) \/
         (z = TSkipped /\ ti_status x = TSkipped /\ logged s (EvTaskUpd i id TSkipped) /\ act_inst s c i) \/
         ((z = TDone \/ z = TFailed \/ z = TWaiting) /\ c = Some t))
  | EvTaskTrk i id z =>
      exists t x, c = Some t /\ c' = c /\ s_tis s !! t = Some x /\ ti_inst x = i /\ t_id (ti_task x) = id /\
        z = ti_status x
  | EvTaskDel i id =>
      exists t x y, s_tis s !! t = Some x /\ ti_inst x = i /\ t_id (ti_task x) = id /\ s_insts s !! i = Some y /\
        act_inst s c i /\ closing s c t i id /\ s' = p_tdel i id s /\ c' = c
  | EvTasksClear j =>
      j = 0%nat /\ s' = p_log (EvTasksClear 0) (p_inst 0 (set_i_tasks ∅) s) /\ c' = c /\
      exists i y h, s_insts s !! i = Some y /\ d_eh (i_def y) = Some h /\ act_inst s c i
  | EvLinkAdd i l =>
      exists t x y k, s_tis s !! t = Some x /\ ti_inst x = i /\ s_insts s !! i = Some y /\ act_inst s c i /\
        i_links y !! l = None /\ l_id k = l /\ k ∈ t_from (ti_task x) ++ t_to (ti_task x) /\ s' = p_lnew i k s /\
        c' = c
  | EvLinkSet i l z =>
      exists t x y k, s_tis s !! t = Some x /\ ti_inst x = i /\ s_insts s !! i = Some y /\ act_inst s c i /\
        l_id k = l /\ k ∈ t_to (ti_task x) /\ closing s c t i (t_id (ti_task x)) /\
        (z = LFalse \/ z = LTrue \/ z = LSkipped) /\ s' = p_lset i k z s /\ c' = c
  | EvLinkUpd i l z => logged s (EvLinkSet i l z) /\ c' = c
  | EvLinkDel i l =>
      exists t x y k, s_tis s !! t = Some x /\ ti_inst x = i /\ s_insts s !! i = Some y /\ act_inst s c i /\
        l_id k = l /\ k ∈ t_from (ti_task x) /\ closing s c t i (t_id (ti_task x)) /\ s' = p_ldel i k s /\ c' = c
  | EvQAdd w i id =>
      exists t x, s_tis s !! t = Some x /\ ti_inst x = i /\ t_id (ti_task x) = id /\ s' = p_sched t x s /\
        w = S (s_wictr s) /\ c' = c /\
        (sched_new s c t x \/ c = Some t \/
         (exists i d, inst_is s i d (Some t) /\ act_inst s c i /\
                      (lately s (EvFlowStatus i FCompleted) \/ lately s (EvFlowStatus i FFailed))))
  | EvQDel w i id =>
      exists t q x y, c' = Some t /\ s_queue s = (w, t) :: q /\ s_tis s !! t = Some x /\ ti_inst x = i /\
        t_id (ti_task x) = id /\ s_insts s !! 0%nat = Some y /\ i_status y = FActive /\
        s' = p_log (EvQDel w i id) (set_s_queue q s)
  | EvAct i id ins it =>
      exists t x y, c = Some t /\ c' = c /\ s_tis s !! t = Some x /\ ti_inst x = i /\ t_id (ti_task x) = id /\
        ti_in x = ins /\ ti_wd x !! "iteration" = it /\ s_insts s !! i = Some y /\ not_intercepted E (d_name (i_def y)) id
  | EvPost i id =>
      exists t x, c = Some t /\ c' = c /\ s_tis s !! t = Some x /\ ti_inst x = i /\ t_id (ti_task x) = id
  | EvSnapshot sn => sn = take_snapshot s
  | EvActEnd _ _ _ | EvLinkEval _ _ _ | EvIcpt _ _ | EvAssert _ _ _ | EvCov _ _ | EvStep | EvSkipStep
  | EvRecStart | EvRecDone | EvReturn _ _ _ | EvCond _ _ _ _ | EvResult _ _ | EvHandlerDone | EvFlowEvent _ _ _ _ _ => True
  end.

Lemma rstep_ev E c s c' s' e :
  rstep E c s c' s' -> s_log s' = e :: s_log s -> ev_cond E c s e c' s'.
Proof.
  assert (forall (e : event) l, l <> e :: l) as Hl.
  { intros e' l H. apply (f_equal length) in H. simpl in H. lia. }
  intros St He. destruct St as [c s s' St| |c s w t q x y Hq Hx Hy Hst|c s m y Hy|c s e0 He0].
  - destruct St; cbn in He; try (by apply Hl in He); injection He as <-; cbn [ev_cond].
    all: try (by eauto 20).
    + by destruct e0.
    + match goal with H : _ \/ _ |- _ => destruct H as [(t & tk & -> & Ht & _)|H] end; eauto 20.
  - by apply Hl in He.
  - cbn in He. injection He as <-. cbn. exists t, q, x, y. split_and!; eauto.
  - cbn in He. injection He as <-. cbn. split_and!; eauto.
  - cbn in He. injection He as <-. by destruct e0.
Qed.

(** The event [e] was logged when the log was [l2]. *)
Lemma history_ev E d uri c s e l1 l2 :
  reach E d uri c s -> s_log s = l1 ++ e :: l2 -> e <> EvFlowCreated ->
  exists c0 s0 c1 s1, reach E d uri c0 s0 /\ rstep E c0 s0 c1 s1 /\ s_log s0 = l2 /\
    s_log s1 = e :: l2 /\ ev_cond E c0 s0 e c1 s1 /\ grows s1 s.
Proof.
  intros H Hl Hne. destruct (history _ _ _ _ _ _ _ _ H Hl Hne) as (c0 & s0 & c1 & s1 & H0 & St & E0 & E1 & G).
  exists c0, s0, c1, s1. split_and!; try done. eapply rstep_ev; [done|]. by rewrite E0.
Qed.

(** An event of the trace splits the log. *)
Lemma trace_split s before e later :
  trace s = before ++ e :: later -> s_log s = rev later ++ e :: rev before.
Proof.
  unfold trace. intros H. apply (f_equal (@rev _)) in H. rewrite rev_involutive in H.
  rewrite rev_app_distr in H. simpl in H. by rewrite <- app_assoc in H.
Qed.
Lemma logged_split s e : logged s e -> exists l1 l2, s_log s = l1 ++ e :: l2.
Proof. apply elem_of_list_split. Qed.

(** ** Facts about well-formed definitions *)
Lemma seq_inj_lookup n m k1 k2 (ls : list nat) i :
  ls = seq n m -> ls !! k1 = Some i -> ls !! k2 = Some i -> k1 = k2.
Proof.
  intros -> H1 H2. apply lookup_seq in H1 as [-> _]. apply lookup_seq in H2 as [? _]. lia.
Qed.
Lemma section_link_inj eh n ts ls l l' :
  section_ok eh n ts ls -> l ∈ ls -> l' ∈ ls -> l_id l = l_id l' -> l = l'.
Proof.
  intros S Hl Hl' Hid. apply elem_of_list_lookup in Hl as [k Hk], Hl' as [k' Hk'].
  assert (k = k') as <-.
  { eapply (seq_inj_lookup n (length ls) k k' (l_id <$> ls) (l_id l)).
    - apply (so_num _ _ _ _ S).
    - by rewrite list_lookup_fmap, Hk.
    - by rewrite list_lookup_fmap, Hk', Hid. }
  congruence.
Qed.
Lemma section_link_range eh n ts ls l :
  section_ok eh n ts ls -> l ∈ ls -> (n <= l_id l < n + length ls)%nat.
Proof.
  intros S Hl. apply (elem_of_list_fmap_1 l_id) in Hl. rewrite (so_num _ _ _ _ S) in Hl.
  apply elem_of_seq in Hl. lia.
Qed.
Lemma section_task_inj eh n ts ls tk tk' :
  section_ok eh n ts ls -> tk ∈ ts -> tk' ∈ ts -> t_id tk = t_id tk' -> tk = tk'.
Proof.
  intros S Hl Hl' Hid. apply elem_of_list_lookup in Hl as [k Hk], Hl' as [k' Hk'].
  assert (k = k') as <-; [|congruence].
  eapply NoDup_lookup; [apply (so_ids _ _ _ _ S)|by rewrite list_lookup_fmap, Hk|].
  by rewrite list_lookup_fmap, Hk', Hid.
Qed.

Lemma graph_tasks d tk : graph_ok d -> tk ∈ all_tasks d ->
  exists n ts ls, section_ok (t_eh tk) n ts ls /\ tk ∈ ts /\
    (forall tk', tk' ∈ all_tasks d -> t_eh tk' = t_eh tk -> tk' ∈ ts) /\
    (forall l, l ∈ ls -> l ∈ all_links d) /\
    (forall l, l ∈ all_links d -> l_eh l = t_eh tk -> l ∈ ls).
Proof.
  intros [S1 S2] Htk. unfold all_tasks, all_links in *. apply elem_of_app in Htk as [Htk|Htk].
  - pose proof (so_eh _ _ _ _ S1 tk Htk) as Heh. rewrite Heh.
    exists 0%nat, (d_tasks d), (d_links d). split_and!; [done|done| |set_solver|].
    + intros tk' [H|H]%elem_of_app E; [done|]. destruct (d_eh d) as [h|]; [|by apply elem_of_nil in H].
      rewrite (so_eh _ _ _ _ (S2 h eq_refl) tk' H) in E. done.
    + intros l [H|H]%elem_of_app E; [done|]. destruct (d_eh d) as [h|]; [|by apply elem_of_nil in H].
      rewrite (so_leh _ _ _ _ (S2 h eq_refl) l H) in E. done.
  - destruct (d_eh d) as [h|]; [|by apply elem_of_nil in Htk].
    pose proof (so_eh _ _ _ _ (S2 h eq_refl) tk Htk) as Heh. rewrite Heh.
    exists (length (d_links d)), (eh_tasks h), (eh_links h). split_and!; [by apply S2|done| |set_solver|].
    + intros tk' [H|H]%elem_of_app E; [|done]. rewrite (so_eh _ _ _ _ S1 tk' H) in E. done.
    + intros l [H|H]%elem_of_app E; [|done]. rewrite (so_leh _ _ _ _ S1 l H) in E. done.
Qed.

Lemma graph_to d tk l : graph_ok d -> tk ∈ all_tasks d ->
  l ∈ t_to tk <-> l ∈ all_links d /\ l_from l = t_id tk /\ l_eh l = t_eh tk.
Proof.
  intros G Htk. destruct (graph_tasks d tk G Htk) as (n & ts & ls & S & Hin & _ & Hl1 & Hl2).
  rewrite (so_to _ _ _ _ S tk Hin). rewrite elem_of_list_In, List.filter_In, <- elem_of_list_In, String.eqb_eq.
  split.
  - intros [H1 H2]. split_and!; eauto. by apply (so_leh _ _ _ _ S).
  - intros (H1 & H2 & H3). eauto.
Qed.
Lemma graph_from d tk l : graph_ok d -> tk ∈ all_tasks d ->
  l ∈ t_from tk <-> l ∈ all_links d /\ l_to l = t_id tk /\ l_eh l = t_eh tk.
Proof.
  intros G Htk. destruct (graph_tasks d tk G Htk) as (n & ts & ls & S & Hin & _ & Hl1 & Hl2).
  rewrite (so_from _ _ _ _ S tk Hin). rewrite elem_of_list_In, List.filter_In, <- elem_of_list_In, String.eqb_eq.
  split.
  - intros [H1 H2]. split_and!; eauto. by apply (so_leh _ _ _ _ S).
  - intros (H1 & H2 & H3). eauto.
Qed.
Lemma graph_task_inj d tk tk' : graph_ok d -> tk ∈ all_tasks d -> tk' ∈ all_tasks d ->
  t_id tk = t_id tk' -> t_eh tk = t_eh tk' -> tk = tk'.
Proof.
  intros G Htk Htk' Hid Heh. destruct (graph_tasks d tk G Htk) as (n & ts & ls & S & Hin & H & _).
  apply (section_task_inj _ _ _ _ _ _ S); auto.
Qed.
Lemma graph_link_inj d l l' : graph_ok d -> l ∈ all_links d -> l' ∈ all_links d ->
  l_id l = l_id l' -> l = l'.
Proof.
  intros [S1 S2]. unfold all_links. rewrite !elem_of_app.
  destruct (d_eh d) as [h|]; [|rewrite !elem_of_nil; intros [?|[]] [?|[]]; by apply (section_link_inj _ _ _ _ _ _ S1)].
  specialize (S2 h eq_refl). intros [H1|H1] [H2|H2] Hid.
  - by apply (section_link_inj _ _ _ _ _ _ S1).
  - apply (section_link_range _ _ _ _ _ S1) in H1. apply (section_link_range _ _ _ _ _ S2) in H2. lia.
  - apply (section_link_range _ _ _ _ _ S1) in H2. apply (section_link_range _ _ _ _ _ S2) in H1. lia.
  - by apply (section_link_inj _ _ _ _ _ _ S2).
Qed.
(** Every link has a source and a target task in its section. *)
Lemma graph_ends d l : graph_ok d -> l ∈ all_links d ->
  exists a b, a ∈ all_tasks d /\ b ∈ all_tasks d /\ t_id a = l_from l /\ t_id b = l_to l /\
    t_eh a = l_eh l /\ t_eh b = l_eh l.
Proof.
  intros [S1 S2]. unfold all_links, all_tasks. rewrite elem_of_app. intros [H|H].
  - destruct (so_ends _ _ _ _ S1 l H) as [Ha Hb].
    apply elem_of_list_fmap in Ha as (a & -> & Ha), Hb as (b & -> & Hb).
    rewrite (so_leh _ _ _ _ S1 l H). exists a, b. split_and!; eauto using (so_eh _ _ _ _ S1); set_solver.
  - destruct (d_eh d) as [h|]; [|by apply elem_of_nil in H]. specialize (S2 h eq_refl).
    destruct (so_ends _ _ _ _ S2 l H) as [Ha Hb].
    apply elem_of_list_fmap in Ha as (a & -> & Ha), Hb as (b & -> & Hb).
    rewrite (so_leh _ _ _ _ S2 l H). exists a, b. split_and!; eauto using (so_eh _ _ _ _ S2); set_solver.
Qed.
Lemma find_task_unique eh n ts ls tk : section_ok eh n ts ls -> tk ∈ ts -> find_task ts (t_id tk) = Some tk.
Proof.
  intros S H. assert (t_id tk ∈ t_id <$> ts) as Hi by by apply elem_of_list_fmap_1.
  apply find_task_some in Hi as [tk' Hf]. rewrite Hf. f_equal. apply find_task_in in Hf as Hin.
  unfold find_task in Hf. destruct (list_find _ ts) as [[k u]|] eqn:E; [|done]. injection Hf as ->.
  apply list_find_Some in E as (_ & Hid & _). by eapply section_task_inj.
Qed.
