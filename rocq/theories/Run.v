(** Whole runs of the action: the loop, the step limit and the delivery of results (proofs; no Go
    counterpart). *)
From Verif Require Export Failed.
Local Open Scope Z_scope.

(** ** The shape of a run *)

Lemma run_flow_parts E ro d uri ins :
  run_flow E ro d uri ins =
  bind (run_begin E ro ins) (fun _ =>
    finally (bind (run_loop E (Z.to_nat (ro_max ro - first_count ro)) (first_count ro)) (run_finish E ro))
      (if ro_detach ro then ret tt else log_ev EvHandlerDone)) (init_st d uri).
Proof.
  unfold run_flow, run_action, run_begin, run_body. cbv zeta.
  replace (if 0 <? ro_init ro then ro_init ro - 1 else 0) with (first_count ro).
  2:{ unfold first_count. destruct (Z.ltb_spec 0 (ro_init ro)); lia. }
  set (F := finally _ _). clearbody F. unfold bind.
  destruct (run_prepare E ro ins (init_st d uri)) as [[]s1]; try done.
Qed.

Lemma laps_S E n s : laps E (S n) s = (lap E (laps E n s)).2.
Proof. revert s. induction n as [|n IH]; intros s; [done|]. cbn [laps]. by rewrite <- IH. Qed.

Lemma run_loop_S E n k s :
  run_loop E (S n) k s =
  match s_insts s !! 0%nat with
  | None => (Panic "nil instance", s)
  | Some y => if i_status y <? FCompleted
      then bind (lap E) (fun more => if more : bool then run_loop E n (k + 1) else ret (k + 1)) s
      else (Ok k, s)
  end.
Proof.
  cbn [run_loop]. unfold get_inst, get, bind at 1 2. destruct (s_insts s !! 0%nat) as [y|]; [|done].
  cbn. destruct (i_status y <? FCompleted); [|done].
  unfold lap, bind. destruct (do_step E s) as [[]s1]; try done.
  destruct ((if e_ext E then record_state E else ret tt) s1) as [[]s2]; done.
Qed.

(** The loop makes some rounds; it ends because the rounds are used up, the flow has ended, or
    there was nothing to do. *)
Lemma run_loop_shape E n k s :
  exists m, (m <= n)%nat /\ (forall j, (j < m)%nat -> exists z, main_status (laps E j s) = Some z /\ z < FCompleted) /\
    (run_loop E n k s).2 = laps E m s /\ forall k', (run_loop E n k s).1 = Ok k' -> k' = k + Z.of_nat m /\
      (m = n \/ (exists z, main_status (laps E m s) = Some z /\ FCompleted <= z) \/
       (exists m', m = S m' /\ (lap E (laps E m' s)).1 = Ok false)).
Proof.
  revert k s. induction n as [|n IH]; intros k s.
  { exists 0%nat. split_and!; [lia|intros; lia|done|]. intros k' [= <-]. split; [lia|by left]. }
  rewrite run_loop_S. destruct (s_insts s !! 0%nat) as [y|] eqn:Hy; [|by exists 0%nat; split_and!; [lia|intros; lia|done|]].
  destruct (Z.ltb_spec (i_status y) FCompleted) as [Hst|Hst].
  2:{ exists 0%nat. split_and!; [lia|intros; lia|done|]. intros k' [= <-]. split; [lia|]. right. left. exists (i_status y).
      split; [|done]. cbn. unfold main_status. by rewrite Hy. }
  assert (exists z, main_status s = Some z /\ z < FCompleted) as Hlt by (unfold main_status; rewrite Hy; eauto).
  unfold bind. destruct (lap E s) as [o s1] eqn:Hl.
  assert (forall r : out Z, (forall k', r <> Ok k') ->
    exists m, (m <= S n)%nat /\ (forall j, (j < m)%nat -> exists z, main_status (laps E j s) = Some z /\ z < FCompleted) /\
      (r, s1).2 = laps E m s /\ forall k', (r, s1).1 = Ok k' ->
      k' = k + Z.of_nat m /\ (m = S n \/ (exists z, main_status (laps E m s) = Some z /\ FCompleted <= z) \/
       (exists m', m = S m' /\ (lap E (laps E m' s)).1 = Ok false))) as Hbad.
  { intros r Hr. exists 1%nat. split_and!; [lia| |cbn; by rewrite Hl|].
    - intros j Hj. assert (j = 0%nat) as -> by lia. done.
    - intros k' Hk'. by destruct (Hr k'). }
  destruct o as [more| | |]; try (by apply Hbad).
  destruct more.
  - destruct (IH (k + 1) s1) as (m & Hm & Hlow & Hs & Hk). exists (S m). cbn [laps]. rewrite Hl. cbn [snd].
    split_and!; [lia| |done|].
    + intros [|j] Hj; [done|]. cbn [laps]. rewrite Hl. apply Hlow. lia.
    + intros k' Hk'. destruct (Hk k' Hk') as [-> Hc]. split; [lia|].
      destruct Hc as [->|[Hc|(m' & -> & Hc)]]; [by left|by right; left|]. right. right. exists (S m').
      cbn [laps]. by rewrite Hl.
  - exists 1%nat. cbn [laps]. rewrite Hl. split_and!; [lia| |done|].
    + intros j Hj. assert (j = 0%nat) as -> by lia. done.
    + intros k' [= <-]. split; [lia|]. right. right. exists 0%nat. cbn [laps]. by rewrite Hl.
Qed.

Lemma lap_running E d uri s : running E d uri s -> running E d uri (lap E s).2.
Proof.
  intros H. assert (running E d uri (do_step E s).2) as H1 by by constructor.
  unfold lap, bind. destruct (do_step E s) as [[b| | |]s1]; try done. simpl in H1.
  destruct (e_ext E); [|done]. assert (running E d uri (record_state E s1).2) as H2 by by constructor.
  by destruct (record_state E s1) as [[]?].
Qed.
Lemma laps_running E d uri n s : running E d uri s -> running E d uri (laps E n s).
Proof. revert s. induction n as [|n IH]; intros s H; [done|]. cbn. by apply IH, lap_running. Qed.

(** ** Events of the engine *)

Definition engine_ev (e : event) : Prop :=
  match e with
  | EvFlowCreated | EvQDel _ _ _ | EvSkipStep | EvRecStart | EvRecDone | EvHandlerDone => False
  | _ => True
  end.
Lemma astep_engine E c s s' :
  astep E c s s' -> s_log s' = s_log s \/ exists e, s_log s' = e :: s_log s /\ engine_ev e.
Proof. intros St. destruct St; try (by left); right; eexists; (split; [reflexivity|]); try done. by destruct e. Qed.
Lemma astep_step E c s s' : astep E c s s' -> s_step s' = s_step s.
Proof. by destruct 1. Qed.

(** What only the loop of a run changes: work items taken, steps made, done signals. *)
Definition counts (s : st) : list (nat * nat * string) * nat * list unit := (executed s, s_step s, done_signals s).
Lemma counts_log e s : (forall w i id, e <> EvQDel w i id) -> e <> EvHandlerDone -> counts (p_log e s) = counts s.
Proof.
  intros H1 H2. unfold counts, executed, done_signals, trace. cbn [s_log p_log set_s_log rev s_step]. rewrite !omap_app. cbn [omap].
  destruct e; simpl; rewrite ?app_nil_r; try done. naive_solver.
Qed.
Lemma counts_same s s' : s_log s' = s_log s -> s_step s' = s_step s -> counts s' = counts s.
Proof. intros H1 H2. unfold counts, executed, done_signals, trace. by rewrite H1, H2. Qed.
Lemma astep_counts E c s s' : astep E c s s' -> counts s' = counts s.
Proof.
  intros St. pose proof (astep_step _ _ _ _ St) as Hs. destruct (astep_engine _ _ _ _ St) as [Hl|(e & Hl & He)].
  - by apply counts_same.
  - rewrite <- (counts_log e s); [by apply counts_same|by intros ??? ->|by intros ->].
Qed.
Lemma asteps_counts E c s s' : asteps E c s s' -> counts s' = counts s.
Proof. intros St. induction St as [|a b e S1 S2 IH]; [done|]. rewrite IH. by eapply astep_counts. Qed.

Section Run.
  Context (E : env) (d : defn) (uri : string).
  Notation reach := (reach E d uri).

  (** The computation keeps to reachable states and does not count. *)
  Definition calm {A} (m : M A) : Prop :=
    forall c s, reach c s -> (exists c', reach c' (m s).2) /\ counts (m s).2 = counts s.
  Lemma calm_ret {A} (a : A) : calm (ret a).
  Proof. intros c s H. eauto. Qed.
  Lemma calm_panic {A} msg : calm (A:=A) (panic msg).
  Proof. intros c s H. eauto. Qed.
  Lemma calm_bind {A B} (m : M A) (k : A -> M B) : calm m -> (forall a, calm (k a)) -> calm (bind m k).
  Proof.
    intros Hm Hk c s H. destruct (Hm c s H) as [[c' H'] C]. unfold bind.
    destruct (m s) as [[]s1]; simpl in *; eauto. destruct (Hk a c' s1 H') as [? C']. split; [done|]. by rewrite C'.
  Qed.
  Lemma calm_wp {A} (m : M A) : (forall c s, wp E c m s T) -> calm m.
  Proof.
    intros W c s H. split; [exists c; exact (reach_wp _ _ _ _ _ _ _ H (W c s))|]. eapply (asteps_counts E c). apply W. by eapply reach_fresh.
  Qed.
  Lemma calm_log e : note_ev e \/ caller_ev e -> e <> EvHandlerDone -> calm (log_ev e).
  Proof.
    intros He N c s H. split; [by eapply rp_log|]. apply counts_log; [|done]. intros ??? ->. by destruct He.
  Qed.
  Lemma calm_set_values m : calm (set_values E 0 m).
  Proof.
    intros c s H. split; [by eapply rp_set_values|].
    destruct (inv_main _ _ _ _ _ H) as (y & Hy & _). unfold set_values. rewrite (set_attrs_eq _ _ _ _ _ Hy). etransitivity; [by apply counts_log|by apply counts_same].
  Qed.
  Lemma calm_get_inst i : calm (get_inst i).
  Proof. apply calm_wp. intros. by apply wp_get_inst. Qed.
  Lemma calm_record : calm (record_state E).
  Proof.
    unfold record_state. destruct (e_rec E) as [m|]; [|apply calm_wp; intros; apply wp_panic].
    apply calm_bind.
    - destruct (record_snapshot m); [|apply calm_wp; intros; by apply wp_ret].
      destruct (e_ext E); apply calm_wp; intros; [|apply wp_panic]. apply wp_bget, wp_step; [|done]. intros _. apply S_snap.
    - intros _. destruct (record_steps m); [|apply calm_wp; intros; by apply wp_ret].
      destruct (e_ext E); [apply calm_log; [by right|done]|apply calm_wp; intros; apply wp_panic].
  Qed.
  Lemma calm_return : calm (get_return_data 0).
  Proof. apply calm_wp. intros. apply wp_get_return_data. Qed.
  Lemma calm_asserts id ty mt k l f : calm (flow_asserts E id ty mt k l f).
  Proof.
    revert k f. induction l as [|a l IH]; intros k f; simpl; [apply calm_ret|].
    destruct mt; simpl.
    - destruct (as_empty a).
      + apply calm_bind; [apply calm_log; [by left|done]|]. intros. apply IH.
      + apply calm_bind.
        { apply calm_bind; [apply calm_wp; intros; apply wp_tick|]. intros.
          apply calm_bind; [apply calm_get_inst|]. intros. apply calm_ret. }
        intros [b|e|m]; [| |apply calm_panic]; (apply calm_bind; [apply calm_log; [by left|done]|]; intros; apply IH).
    - apply calm_bind; [apply calm_log; [by left|done]|]. intros. apply IH.
  Qed.
  Lemma calm_flow_asserts ty : calm (apply_flow_asserts E ty).
  Proof.
    apply calm_bind; [apply calm_get_inst|]. intros x. cbv zeta. destruct (task_icpt E (d_name (i_def x) +:+ "-_flowOutput")); [|apply calm_ret].
    apply calm_bind; [apply calm_log; [by left|done]|]. intros. apply calm_asserts.
  Qed.
  Lemma calm_finish ro k : calm (run_finish E ro k).
  Proof.
    apply calm_bind; [apply calm_get_inst|]. intros x. destruct (_ && _); [apply calm_log; [by left|done]|].
    apply calm_bind.
    - destruct (i_status x =? FCompleted).
      + apply calm_bind; [apply calm_return|]. intros r.
        apply calm_bind; [destruct r.1; [apply calm_set_values|apply calm_ret]|]. intros.
        apply calm_bind; [apply calm_flow_asserts|]. intros. apply calm_log; [by left|done].
      + destruct (i_status x =? FFailed); [|apply calm_ret].
        apply calm_bind; [apply calm_flow_asserts|]. intros b.
        apply calm_bind; [destruct b; [apply calm_log; [by left|done]|apply calm_ret]|]. intros.
        apply calm_bind; [apply calm_get_inst|]. intros. apply calm_log; [by left|done].
    - intros. destruct (e_ext E); [|apply calm_ret].
      apply calm_bind; [apply calm_bind; [apply calm_return|intros; apply calm_ret]|]. intros. apply calm_log; [by right|done].
  Qed.
  Lemma calm_after ro : calm (after_start E ro).
  Proof.
    apply calm_bind; [apply calm_wp; intros; by apply wp_upd_inst|]. intros _. destruct (e_ext E); [|apply calm_ret].
    destruct (_ <=? _); [apply calm_record|]. apply calm_log; [by right|done].
  Qed.

  (** What was taken, counted and signalled when the loop starts. *)
  Lemma begin_counts ro ins :
    (exists c, reach c (run_begin E ro ins (init_st d uri)).2) /\
    exists l, counts (run_begin E ro ins (init_st d uri)).2 = ([], 0%nat, l) /\
    ((run_begin E ro ins (init_st d uri)).1 = Ok tt -> l = if ro_detach ro then [tt] else []).
  Proof.
    split; [apply run_begin_reach|].
    assert (exists s0, run_begin E ro ins (init_st d uri) = bind (start E ins) (fun _ => after_start E ro ;; run_head E ro) s0 /\
      counts s0 = ([], 0%nat, []) /\ reach None s0 /\ nstarted s0 None 0) as (s0 & -> & C0 & R0 & N0).
    { destruct (blank_before E ro d uri _ (blank_init d uri)) as (s' & Hb & B). exists s'. split_and!.
      - unfold run_begin, bind at 1. rewrite run_prepare_parts. change (bind (if e_ext E then flow_state ;; log_ev EvRecStart else ret tt) _) with (before_start E ro).
        unfold bind at 1. rewrite Hb. change (bind (upd_inst 0 (set_i_handler true)) _) with (after_start E ro).
        unfold bind at 1 2. destruct (start E ins s') as [[]?]; done.
      - destruct B as (_ & _ & _ & _ & _ & _ & _ & _ & _ & Hp & _ & Hq). unfold counts, executed, done_signals, trace. rewrite Hp.
        assert (forall A (f : event -> option A), (forall e, quiet_ev e -> f e = None) -> omap f (rev (s_log s')) = []) as Ho.
        { intros A f Hf. assert (forall e, e ∈ rev (s_log s') -> quiet_ev e) as Hr by (intros e He; apply Hq; by apply in_rev_elem).
          induction (rev (s_log s')) as [|e l IH]; [done|]. simpl. rewrite Hf by (apply Hr; left). apply IH. intros. apply Hr. by right. }
        rewrite !Ho; [done|by intros []..].
      - pose proof (rp0_before E d uri ro _ (R_init _ _ _) (nstarted_init d uri)) as [H _].
        change (bind (if e_ext E then flow_state ;; log_ev EvRecStart else ret tt) _) with (before_start E ro) in H. by rewrite Hb in H.
      - destruct B as (r & a & HI & _). eexists. rewrite HI, lookup_singleton. split; [done|]. done. }
    assert (asteps E None s0 (start E ins s0).2) as St.
    { apply (wp_start_instance E None 0 ins s0 N0). by eapply reach_fresh. }
    pose proof (asteps_counts _ _ _ _ St) as C1. rewrite C0 in C1. pose proof (reach_asteps _ _ _ _ _ _ R0 St) as R1.
    remember (bind (start E ins) _ s0) as q eqn:Hq. unfold bind at 1 in Hq.
    destruct (start E ins s0) as [[[]| | |]s1]; simpl in C1, R1; try (subst q; by exists []).
    destruct (calm_after ro _ _ R1) as [[c R2] C2]. rewrite C1 in C2. unfold bind at 1 in Hq.
    destruct (after_start E ro s1) as [[[]| | |]s2]; simpl in C2, R2; try (subst q; by exists []). subst q.
    exists (if ro_detach ro then [tt] else []). split; [|done]. unfold run_head.
    assert (exists s3, (if ro_detach ro then log_ev EvHandlerDone else ret tt) s2 = (Ok tt, s3) /\
      counts s3 = ([], 0%nat, if ro_detach ro then [tt] else [])) as (s3 & H3 & C3).
    { destruct (ro_detach ro); [|by exists s2]. eexists. split; [done|]. unfold counts, executed, done_signals, trace in *.
      cbn. rewrite !omap_app. injection C2 as E1 E2 E3. rewrite E1, E2, E3. done. }
    unfold bind. rewrite H3. destruct (ro_retid ro); [|done]. simpl. rewrite <- C3. by apply counts_log.
  Qed.

  (** One round takes at most one work item and makes one step. *)
  Definition grew (n m : nat) (s s' : st) : Prop :=
    (length (executed s') <= length (executed s) + n)%nat /\ s_step s' = (s_step s + m)%nat /\ done_signals s' = done_signals s.
  Lemma do_step_counts c s : reach c s -> grew 1 1 s (do_step E s).2.
  Proof.
    intros H. destruct (do_step_cases E s) as [->|(w & t & q & x & y & Hq & Hx & Hy & Ha & ->)].
    - unfold grew. change (executed _) with (executed s) at 1. change (done_signals _) with (done_signals s). cbn. split_and!; [lia|lia|done].
    - pose proof (popped_reach _ _ _ _ _ _ _ _ _ _ H Hq Hx Hy Ha) as R. pose proof (asteps_counts _ _ _ _ (exec_asteps _ _ _ (Some t) t _ R)) as C.
      unfold counts in C. injection C as E1 E2 E3. unfold grew. rewrite E1, E2, E3. unfold popped, executed, done_signals, trace. cbn.
      rewrite !omap_app, app_length. cbn. rewrite app_nil_r. split_and!; [lia|lia|done].
  Qed.
  Lemma lap_counts c s : reach c s -> (exists c', reach c' (lap E s).2) /\ grew 1 1 s (lap E s).2.
  Proof.
    intros H. destruct (rp_do_step E d uri c s H) as [c1 H1]. pose proof (do_step_counts c s H) as G. unfold lap, bind.
    destruct (do_step E s) as [[b| | |]s1]; simpl in *; eauto. destruct (e_ext E); [|eauto].
    destruct (calm_record c1 s1 H1) as [H2 C]. destruct (record_state E s1) as [[]s2]; simpl in *; (split; [done|]);
      injection C as E1 E2 E3; unfold grew in *; rewrite E1, E2, E3; done.
  Qed.
  Lemma laps_counts n c s : reach c s -> (exists c', reach c' (laps E n s)) /\ grew n n s (laps E n s).
  Proof.
    revert c s. induction n as [|n IH]; intros c s H.
    - split; [eauto|]. cbn. unfold grew. split_and!; [lia|lia|done].
    - cbn. destruct (lap_counts c s H) as [[c1 H1] (A1 & A2 & A3)]. destruct (IH c1 _ H1) as [H2 (B1 & B2 & B3)].
      split; [done|]. unfold grew. rewrite B2, B3, A2, A3. split_and!; [lia|lia|done].
  Qed.
End Run.

(** ** The statuses of a flow *)

Lemma statuses_log e s i : (forall z, e <> EvFlowStatus i z) -> statuses i (p_log e s) = statuses i s.
Proof.
  intros H. unfold statuses, trace. cbn [s_log p_log set_s_log rev]. rewrite omap_app. cbn. destruct e; simpl; rewrite ?app_nil_r; try done.
  match goal with |- context [Nat.eqb ?j ?k] => destruct (Nat.eqb_spec j k) as [->|] end; [by edestruct H|]. by rewrite app_nil_r.
Qed.
Lemma statuses_same s s' i : s_log s' = s_log s -> statuses i s' = statuses i s.
Proof. intros H. unfold statuses, trace. by rewrite H. Qed.
Lemma statuses_fstat i z s : statuses i (p_fstat i z s) = statuses i s ++ [z].
Proof. unfold statuses, trace. cbn. rewrite omap_app. cbn. by rewrite Nat.eqb_refl. Qed.

Section Statuses.
  Context (E : env) (d : defn) (uri : string).
  Notation reach := (reach E d uri).

  Definition stat_of (s : st) (i : nat) : option Z := i_status <$> s_insts s !! i.
  Lemma stat_same i j f s : (forall y, i_status (f y) = i_status y) -> stat_of (p_inst i f s) j = stat_of s j.
  Proof.
    intros Hf. unfold stat_of. destruct (decide (i = j)) as [->|Hne].
    - rewrite p_inst_at. destruct (s_insts s !! j); simpl; [|done]. by rewrite Hf.
    - by rewrite p_inst_ne.
  Qed.
  Lemma astep_status c s s' i : astep E c s s' ->
    (statuses i s' = statuses i s /\ (stat_of s' i = stat_of s i \/ (s_insts s !! i = None /\ stat_of s' i = Some FNotStarted))) \/
    (exists z, stat_of s' i = Some z /\ statuses i s' = statuses i s ++ [z] /\
       ((z = FActive /\ stat_of s i = Some FNotStarted) \/ ((z = FCompleted \/ z = FFailed) /\ act_inst s c i))).
  Proof.
    intros St.
    assert (forall j z y, s_insts s !! j = Some y ->
      (z = FActive /\ i_status y = FNotStarted) \/ ((z = FCompleted \/ z = FFailed) /\ act_inst s c j) ->
      (statuses i (p_fstat j z s) = statuses i s /\
        (stat_of (p_fstat j z s) i = stat_of s i \/ (s_insts s !! i = None /\ stat_of (p_fstat j z s) i = Some FNotStarted))) \/
      (exists z', stat_of (p_fstat j z s) i = Some z' /\ statuses i (p_fstat j z s) = statuses i s ++ [z'] /\
       ((z' = FActive /\ stat_of s i = Some FNotStarted) \/ ((z' = FCompleted \/ z' = FFailed) /\ act_inst s c i)))) as Hf.
    { intros j z y Hy Hz. destruct (decide (j = i)) as [->|Hne].
      - right. exists z. split_and!.
        + unfold stat_of. cbn. by rewrite lookup_alter, Hy.
        + apply statuses_fstat.
        + unfold stat_of. rewrite Hy. simpl. destruct Hz as [[-> ->]|?]; [by left|by right].
      - left. split; [|left].
        + etransitivity; [apply statuses_log; intros z0 [= Hj _]; by subst|by apply statuses_same].
        + unfold stat_of. cbn. by rewrite lookup_alter_ne. }
    destruct St;
      try (left; split; [by apply statuses_same|by left]);
      try (left; split; [apply statuses_log; done|by left]);
      try (left; split; [etransitivity; [apply statuses_log; done|by apply statuses_same]|by left]);
      try (left; split; [by apply statuses_same|left; by apply stat_same]);
      try (left; split; [etransitivity; [apply statuses_log; done|by apply statuses_same]|left; apply (stat_same _ _ _ s); done]);
      try (by eapply Hf; eauto).
    - left. split; [|by left]. apply statuses_log. intros z ->. done.
    - left. split; [by apply statuses_same|left]. apply stat_same. intros y. by destruct (H y) as (_ & _ & -> & _).
    - left. split; [etransitivity; [apply statuses_log; done|by apply statuses_same]|]. unfold stat_of. cbn.
      destruct (decide (S (s_sfctr s) = i)) as [<-|Hne]; [right; by rewrite lookup_insert|left; by rewrite lookup_insert_ne].
  Qed.

  (** A flow is active first, then only completed or failed; its status is the last one. *)
  Definition stat_ok (o : option Z) (l : list Z) : Prop :=
    match o with
    | None => l = []
    | Some z => (l = [] /\ z = FNotStarted) \/
        (exists r, l = FActive :: r /\ Forall (fun z => z = FCompleted \/ z = FFailed) r /\ last l = Some z)
    end.
  Definition stat_inv (s : st) : Prop :=
    (forall t i tk, ti_is s t i tk -> statuses i s <> []) /\ forall i, stat_ok (stat_of s i) (statuses i s).
  Lemma statuses_grow c s c' s' i : rstep E c s c' s' -> statuses i s <> [] -> statuses i s' <> [].
  Proof.
    intros St H. destruct (rstep_grows _ _ _ _ _ St) as (_ & _ & l & Hl). unfold statuses, trace in *. rewrite Hl, rev_app_distr, omap_app.
    intros H'. apply H. by destruct (omap _ (rev (s_log s))).
  Qed.
  Lemma logged_status s i z : logged s (EvFlowStatus i z) -> statuses i s <> [].
  Proof.
    unfold logged. intros H H'. assert (z ∈ statuses i s) as Hin; [|rewrite H' in Hin; by apply elem_of_nil in Hin].
    unfold statuses. apply elem_of_list_omap. exists (EvFlowStatus i z). rewrite Nat.eqb_refl. split; [|done]. by apply in_rev_elem.
  Qed.
  Lemma inv_stat c s : reach c s -> stat_inv s.
  Proof.
    intros H. eapply (reach_inv E d uri (fun _ s => stat_inv s)); [| |exact H]; clear H c s.
    - split.
      + intros t i tk (x & Hx & _). cbn in Hx. by rewrite lookup_empty in Hx.
      + intros i. unfold stat_of. cbn [s_insts init_st]. destruct (decide (i = 0%nat)) as [->|Hi].
        * rewrite lookup_singleton. by left.
        * by rewrite lookup_singleton_ne.
    - intros c s c' s' R F [I1 I2] St. 
      assert (forall i, act_inst s c i -> statuses i s <> []) as Hact.
      { intros i [(t & tk & -> & Ht)|(d' & _ & Hl)]; [eauto|by eapply logged_status]. }
      assert (forall i, stat_ok (stat_of s' i) (statuses i s')) as I2'.
      { intros i. specialize (I2 i). destruct St as [c s s' St|c s|c s w t q x y Hq Hx Hy Ha|c s m y Hy|c s e He].
        - destruct (astep_status c s s' i St) as [[-> [->|[Hn ->]]]|(z & -> & -> & Hz)].
          + done.
          + left. split; [|done]. unfold stat_of in I2. rewrite Hn in I2. done.
          + right. destruct Hz as [[-> Hz]|[Hz Ha]].
            * rewrite Hz in I2. destruct I2 as [[-> _]|(r & -> & Hr & Hl)]; [exists []; done|]. exfalso. cbn in Hl.
              destruct (exists_last (l := FActive :: r)) as (q & a & Hq); [done|]. rewrite Hq in Hl.
              rewrite last_snoc in Hl. injection Hl as ->. destruct q as [|b q]; [by injection Hq|].
              injection Hq as _ ->. apply Forall_app in Hr as [_ Hr]. rewrite Forall_singleton in Hr. destruct Hr as [Hr|Hr]; vm_compute in Hr; discriminate Hr.
            * apply Hact in Ha. unfold stat_ok in I2. destruct (stat_of s i) as [z0|]; [|done].
              destruct I2 as [[? _]|(r & Hr & Hall & _)]; [done|]. rewrite Hr. exists (r ++ [z]). split_and!.
              -- done.
              -- apply Forall_app. split; [done|]. by apply Forall_singleton.
              -- apply (last_snoc z (FActive :: r)).
        - done.
        - rewrite statuses_log by done. exact I2.
        - unfold stat_of in *. change (statuses i (p_set (e_track E) 0 m s)) with (statuses i (p_log (EvSet 0 m (e_track E)) s)).
          rewrite statuses_log by done. cbn [p_set s_insts p_log set_s_log].
          change (stat_ok (stat_of (p_inst 0 (fun x => set_i_attrs (m ∪ i_attrs x) x) s) i) (statuses i s)). by rewrite stat_same.
        - rewrite statuses_log; [done|]. intros z ->. done. }
      split; [|done]. intros t i tk Ht. apply (statuses_grow _ _ _ _ i St).
      destruct St as [c s s' St|c s|c s w t' q x y Hq Hx Hy Ha|c s m y Hy|c s e He]; try (by apply (I1 t i tk)).
      destruct (astep_ti_is _ _ _ _ _ _ _ St Ht) as [?|(y & _ & _ & _ & Ha & _)]; [by apply (I1 t i tk)|by apply Hact].
  Qed.
End Statuses.

(** ** The end of a run *)

Lemma delivered_app s s' l : s_log s' = l ++ s_log s ->
  delivered s' = delivered s ++ omap (fun e => match e with EvResult d e => Some (d, e) | _ => None end) (rev l).
Proof. intros H. unfold delivered, trace. by rewrite H, rev_app_distr, omap_app. Qed.

Lemma get_inst_bind {A} i y (k : inst -> M A) s : s_insts s !! i = Some y -> bind (get_inst i) k s = k y s.
Proof. intros Hy. unfold get_inst, get, bind. by rewrite Hy. Qed.
Lemma ext_flow_bind {A B} (f : nat -> view -> A) (k : A -> M B) s :
  bind (ext_flow f) k s =
  match s_insts s !! 0%nat with
  | Some y => k (f (s_tick s) (mk_view 0 "" (i_attrs y) ∅ ∅ ∅ ∅)) (set_s_tick (S (s_tick s)) s)
  | None => (Panic "nil instance", set_s_tick (S (s_tick s)) s)
  end.
Proof. unfold ext_flow, tick, get_inst, get, modify, bind. cbn. by destruct (s_insts s !! 0%nat). Qed.

(** Assertions on the flow only leave their own events. *)
Definition asserted (s s' : st) : Prop :=
  s_insts s' = s_insts s /\ delivered s' = delivered s.
Lemma asserted_refl s : asserted s s. Proof. done. Qed.
Lemma asserted_trans s1 s2 s3 : asserted s1 s2 -> asserted s2 s3 -> asserted s1 s3.
Proof. intros [A1 A2] [B1 B2]. split; congruence. Qed.
Lemma asserted_log e s : (match e with EvIcpt _ _ | EvAssert _ _ _ => True | _ => False end) -> asserted s (p_log e s).
Proof. intros He. split; [done|]. rewrite (delivered_app s (p_log e s) [e]) by done. destruct e; try done; by rewrite app_nil_r. Qed.
Lemma flow_asserts_frame E id ty mt k l f s :
  asserted s (flow_asserts E id ty mt k l f s).2 /\
  ((flow_asserts E id ty mt k l f s).1 = Ok true -> f = true \/ (mt = true /\ ty = 2 /\ exists a, a ∈ l /\ as_empty a = false)).
Proof.
  revert k f s. induction l as [|a l IH]; intros k f s; [cbn; split; [done|intros [= ->]; by left]|].
  assert (forall e f', (match e with EvIcpt _ _ | EvAssert _ _ _ => True | _ => False end) ->
    (f' = true -> f = true \/ (mt = true /\ ty = 2 /\ exists a', a' ∈ a :: l /\ as_empty a' = false)) ->
    forall s0, asserted s s0 ->
    asserted s (bind (log_ev e) (fun _ => flow_asserts E id ty mt (S k) l f') s0).2 /\
    ((bind (log_ev e) (fun _ => flow_asserts E id ty mt (S k) l f') s0).1 = Ok true ->
      f = true \/ (mt = true /\ ty = 2 /\ exists a', a' ∈ a :: l /\ as_empty a' = false))) as Hgo.
  { intros e f' He Hf s0 H0. change (bind (log_ev e) (fun _ => flow_asserts E id ty mt (S k) l f') s0) with (flow_asserts E id ty mt (S k) l f' (p_log e s0)).
    destruct (IH (S k) f' (p_log e s0)) as [I1 I2]. split.
    - eapply asserted_trans; [exact H0|]. eapply asserted_trans; [by apply asserted_log|done].
    - intros H. destruct (I2 H) as [?|(? & ? & a' & ? & ?)]; [auto|]. right. split_and!; [done|done|]. exists a'. split; [by right|done]. }
  cbn [flow_asserts]. destruct mt; cbn [negb].
  - destruct (as_empty a) eqn:Ha; [apply Hgo; [done|auto|done]|].
    rewrite ext_flow_bind. destruct (s_insts s !! 0%nat) as [y|]; [|by split].
    destruct (e_assert E _ _) as [b|e|m]; [| |by split]; (apply Hgo; [done| |done]); [|auto].
    intros H. apply orb_true_iff in H as [->|H%Z.eqb_eq]; [by left|]. right. split_and!; [done|done|]. exists a. split; [left|done].
  - apply Hgo; [done|auto|done].
Qed.
Lemma apply_asserts_frame E ty s y : s_insts s !! 0%nat = Some y ->
  asserted s (apply_flow_asserts E ty s).2 /\ ((apply_flow_asserts E ty s).1 = Ok true -> ty = 2 /\ has_assert E y).
Proof.
  intros Hy. unfold apply_flow_asserts. rewrite (get_inst_bind _ _ _ _ Hy). cbv zeta.
  destruct (task_icpt E _) as [c|] eqn:Hc; [|by split].
  change (bind (log_ev (EvIcpt ?i ?r)) (fun _ => ?m) s) with (m (p_log (EvIcpt i r) s)).
  destruct (flow_asserts_frame E (d_name (i_def y) +:+ "-_flowOutput") ty (tc_type c =? ty) 0 (tc_asserts c) false
    (p_log (EvIcpt (d_name (i_def y) +:+ "-_flowOutput") 1) s)) as [A B]. split.
  - eapply (asserted_trans _ (p_log _ s)); [|exact A]. by apply asserted_log.
  - intros H. destruct (B H) as [?|(Ht & -> & a & Ha & He)]; [done|]. split; [done|]. apply Z.eqb_eq in Ht. exists c, a. done.
Qed.

Lemma result_data_cached y : i_rdata (cached y) = result_data y.
Proof. unfold cached, result_data. cbn. by destruct (i_rdata y), (d_md (i_def y)) as [[? []]|]. Qed.

(** What holds if the computation returns normally. *)
Definition pc {A} (m : M A) (s : st) (Q : A -> st -> Prop) : Prop := forall a s', m s = (Ok a, s') -> Q a s'.
Lemma pc_bind {A B} (m : M A) (k : A -> M B) s Q : pc m s (fun a s' => pc (k a) s' Q) -> pc (bind m k) s Q.
Proof. intros H b s'. unfold bind. destruct (m s) as [[a| | |]s1] eqn:Hm; try done. intros Hk. by apply (H a s1 Hm). Qed.
Lemma pc_mono {A} (m : M A) s (Q R : A -> st -> Prop) : pc m s Q -> (forall a s', Q a s' -> R a s') -> pc m s R.
Proof. intros H HR a s' Hm. auto. Qed.
Lemma pc_ret {A} (a : A) s (Q : A -> st -> Prop) : Q a s -> pc (ret a) s Q.
Proof. intros H b s' [= <- <-]. done. Qed.
Lemma pc_log e s (Q : unit -> st -> Prop) : Q tt (p_log e s) -> pc (log_ev e) s Q.
Proof. intros H b s' [= <- <-]. done. Qed.
Lemma pc_eq {A} (m : M A) s a s' (Q : A -> st -> Prop) : m s = (Ok a, s') -> Q a s' -> pc m s Q.
Proof. intros H HQ b s2. rewrite H. by intros [= <- <-]. Qed.
Lemma pc_get_inst i s (Q : inst -> st -> Prop) : (forall y, s_insts s !! i = Some y -> Q y s) -> pc (get_inst i) s Q.
Proof.
  intros H. intros b s2. unfold get_inst, get, bind. destruct (s_insts s !! i) as [y|] eqn:Hy; [|done].
  intros [= <- <-]. auto.
Qed.

Lemma delivered_log e s : delivered (p_log e s) = delivered s ++ match e with EvResult d e => [(d, e)] | _ => [] end.
Proof. rewrite (delivered_app s (p_log e s) [e]) by done. by destruct e. Qed.
Lemma delivered_same s s' : s_log s' = s_log s -> delivered s' = delivered s.
Proof. intros H. unfold delivered, trace. by rewrite H. Qed.

Lemma Zeqb_decide a b : Z.eqb a b = bool_decide (a = b).
Proof. case_bool_decide; [by apply Z.eqb_eq|by apply Z.eqb_neq]. Qed.
Lemma run_finish_results E ro k s y : s_insts s !! 0%nat = Some y ->
  pc (run_finish E ro k) s (fun _ s' => exists r, delivered s' = delivered s ++ r /\ last_results E ro k y r /\
    main_status s' = Some (i_status y)).
Proof.
  intros Hy.
  apply pc_bind, pc_get_inst. intros y0 Hy0. rewrite Hy in Hy0. injection Hy0 as <-.
  rewrite !Zeqb_decide. unfold last_results. destruct (bool_decide (k = _) && _).
  { apply pc_log. exists [(None, Some (limit_err E ro))]. rewrite delivered_log. split_and!; [done|done|]. unfold main_status. cbn. by rewrite Hy. }
  apply pc_bind.
  apply (pc_mono _ _ (fun _ s' => exists r, delivered s' = delivered s ++ r /\
    (if bool_decide (i_status y = FCompleted) then r = [(result_data y, i_rerr y)]
     else if bool_decide (i_status y = FFailed) then
       r = [(None, i_rerr y)] \/ (r = [(None, None); (None, i_rerr y)] /\ has_assert E y)
     else r = []) /\ exists y', s_insts s' !! 0%nat = Some y' /\ i_status y' = i_status y)).
  - destruct (bool_decide (i_status y = FCompleted)).
    + apply pc_bind. eapply pc_eq; [by apply get_return_data_eq|]. cbn [fst snd]. rewrite result_data_cached.
      assert (s_insts (p_inst 0 cached s) !! 0%nat = Some (cached y)) as H1 by (rewrite p_inst_at, Hy; done).
      apply pc_bind. apply (pc_mono _ _ (fun _ s' => delivered s' = delivered s /\ exists y', s_insts s' !! 0%nat = Some y' /\ i_status y' = i_status y)).
      { destruct (result_data y).
        - eapply pc_eq; [by apply (set_attrs_eq _ _ _ _ _ H1)|]. split.
          + unfold p_set. rewrite delivered_log, app_nil_r. done.
          + eexists. rewrite p_set_at, H1. done.
        - apply pc_ret. split; [by apply delivered_same|]. eauto. }
      intros _ s1 (D1 & y1 & Hy1 & S1). apply pc_bind. intros b s2 Hb. apply pc_log.
      destruct (apply_asserts_frame E 1 s1 y1 Hy1) as [[A1 A2] _]. rewrite Hb in A1, A2. simpl in A1, A2.
      eexists. rewrite delivered_log, A2, D1. split_and!; [done|done|]. exists y1. cbn. by rewrite A1.
    + destruct (bool_decide (i_status y = FFailed)); [|apply pc_ret; exists []; rewrite app_nil_r; eauto].
      apply pc_bind. intros b s1 Hb. destruct (apply_asserts_frame E 2 s y Hy) as [[A1 A2] A3]. rewrite Hb in A1, A2, A3. simpl in A1, A2, A3.
      apply pc_bind. apply (pc_mono _ _ (fun _ s' => s_insts s' = s_insts s /\
        ((delivered s' = delivered s) \/ (delivered s' = delivered s ++ [(None, None)] /\ has_assert E y)))).
      { destruct b.
        - apply pc_log. split; [done|]. right. rewrite delivered_log, A2. split; [done|]. by apply A3.
        - apply pc_ret. auto. }
      intros _ s2 (I2 & D2). apply pc_bind, pc_get_inst. intros y0 Hy0. rewrite I2, Hy in Hy0. injection Hy0 as <-. apply pc_log.
      destruct D2 as [D2|[D2 Ha]]; (eexists; rewrite delivered_log, D2; split; [by rewrite <- ?app_assoc|]; split; [auto|]; exists y; cbn; by rewrite I2).
  - intros _ s1 (r & D & HQ & y1 & Hy1 & S1). destruct (e_ext E).
    + apply pc_bind. apply pc_bind. eapply pc_eq; [by apply get_return_data_eq|]. apply pc_ret, pc_log. exists r.
      rewrite delivered_log, app_nil_r. split_and!; [by rewrite <- D|done|].
      unfold main_status. cbn [s_insts p_log set_s_log]. rewrite p_inst_at, Hy1. cbn. congruence.
    + apply pc_ret. exists r. split_and!; [done|done|]. unfold main_status. rewrite Hy1. cbn. congruence.
Qed.

(** The signal at the end of the run. *)
Lemma finally_shape {A} (m : M A) (f : M unit) s :
  (forall s0, exists s1, f s0 = (Ok tt, s1)) ->
  match (m s).1 with
  | Ok a => finally m f s = (Ok a, (f (m s).2).2)
  | Panic e => finally m f s = (Panic e, (f (m s).2).2)
  | Fuel => finally m f s = (Fuel, (m s).2)
  | Blocked => finally m f s = (Blocked, (m s).2)
  end.
Proof.
  intros Hf. unfold finally, catch, bind. destruct (m s) as [[a|e| |]s1]; simpl; try done; destruct (Hf s1) as [s2 ->]; done.
Qed.

Lemma bind_early (m : M unit) (k : unit -> M unit) s :
  (m s).1 <> Ok tt -> (bind m k s).2 = (m s).2 /\ (bind m k s).1 = (m s).1.
Proof. unfold bind. destruct (m s) as [[[]| | |]?]; done. Qed.

Lemma out_ok (o : out unit) : o = Ok tt \/ o <> Ok tt.
Proof. destruct o as [[]| | |]; auto. Qed.

Section Whole.
  Context (E : env) (ro : run_opts) (d : defn) (uri : string) (ins : vmap).
  Notation s0 := (run_begin E ro ins (init_st d uri)).2.
  Notation s1 := (run_flow E ro d uri ins).2.
  Notation limit := (Z.to_nat (ro_max ro - first_count ro)).
  Notation loop := (bind (run_loop E limit (first_count ro)) (run_finish E ro)).

  Lemma done_total s : exists s', (if ro_detach ro then ret tt else log_ev EvHandlerDone) s = (Ok tt, s').
  Proof. destruct (ro_detach ro); eauto. Qed.
  Lemma run_flow_body : (run_begin E ro ins (init_st d uri)).1 = Ok tt ->
    run_flow E ro d uri ins = finally loop (if ro_detach ro then ret tt else log_ev EvHandlerDone) s0.
  Proof. intros H. rewrite run_flow_parts. unfold bind at 1. destruct (run_begin E ro ins (init_st d uri)) as [[[]| | |]?]; done. Qed.
  Lemma run_flow_early : (run_begin E ro ins (init_st d uri)).1 <> Ok tt ->
    s1 = s0 /\ (run_flow E ro d uri ins).1 = (run_begin E ro ins (init_st d uri)).1.
  Proof.
    rewrite run_flow_parts. apply bind_early.
  Qed.

  (** What the loop and the end of the run count. *)
  Lemma loop_counts c s : reach E d uri c s ->
    exists m, (m <= limit)%nat /\ grew m m s (loop s).2 /\
      (forall j, (j < m)%nat -> exists z, main_status (laps E j s) = Some z /\ z < FCompleted) /\
      ((loop s).1 = Ok tt -> exists y, s_insts (laps E m s) !! 0%nat = Some y /\
        (m = limit \/ FCompleted <= i_status y \/ exists m', m = S m' /\ (lap E (laps E m' s)).1 = Ok false) /\
        exists r, delivered (loop s).2 = delivered (laps E m s) ++ r /\ last_results E ro (first_count ro + Z.of_nat m) y r /\
          main_status (loop s).2 = Some (i_status y)).
  Proof.
    intros R. destruct (run_loop_shape E limit (first_count ro) s) as (m & Hm & Hlow & Hs & Hk). exists m. split; [done|].
    destruct (laps_counts E d uri m c s R) as [[c' R'] G].
    remember (loop s) as q eqn:Hq. unfold bind in Hq.
    destruct (run_loop E limit (first_count ro) s) as [[k'| | |]s2]; simpl in Hs; subst s2 q; try by split_and!.
    destruct (Hk k' eq_refl) as [-> Hc]. destruct (calm_finish E d uri ro (first_count ro + Z.of_nat m) c' _ R') as [_ C].
    split_and!; [|done|].
    - injection C as E1 E2 E3. unfold grew in *. by rewrite E1, E2, E3.
    - intros Hok. destruct (inv_main _ _ _ _ _ R') as (y & Hy & _). exists y. split; [done|]. split.
      + destruct Hc as [?|[(z & Hz & ?)|?]]; [by left| |by right; right]. right. left. unfold main_status in Hz. rewrite Hy in Hz. by injection Hz as ->.
      + pose proof (run_finish_results E ro (first_count ro + Z.of_nat m) (laps E m s) y Hy) as P.
        destruct (run_finish E ro (first_count ro + Z.of_nat m) (laps E m s)) as [o s2] eqn:Hf. simpl in *. subst o. exact (P tt s2 Hf).
  Qed.

  Lemma limited : (length (executed s1) <= limit)%nat /\ (s_step s1 <= limit)%nat.
  Proof.
    destruct (begin_counts E d uri ro ins) as [[c R] (l & C & _)]. injection C as E1 E2 E3.
    destruct (out_ok (run_begin E ro ins (init_st d uri)).1) as [H|H].
    - rewrite (run_flow_body H). destruct (loop_counts c _ R) as (m & Hm & (G1 & G2 & _) & _). rewrite E1, E2 in *. simpl in *.
      pose proof (finally_shape loop _ s0 done_total) as F.
      assert (executed (finally loop (if ro_detach ro then ret tt else log_ev EvHandlerDone) s0).2 = executed (loop s0).2 /\
              s_step (finally loop (if ro_detach ro then ret tt else log_ev EvHandlerDone) s0).2 = s_step (loop s0).2) as [-> ->].
      { assert (forall s, executed ((if ro_detach ro then ret tt else log_ev EvHandlerDone) s).2 = executed s /\
                          s_step ((if ro_detach ro then ret tt else log_ev EvHandlerDone) s).2 = s_step s) as Hd.
        { intros s. destruct (ro_detach ro); [done|]. split; [|done]. unfold executed, trace. cbn. by rewrite omap_app, app_nil_r. }
        destruct (loop s0).1; rewrite F; simpl; auto. }
      lia.
    - destruct (run_flow_early H) as [-> _]. rewrite E1, E2. simpl. lia.
  Qed.

  Lemma done_once : (run_begin E ro ins (init_st d uri)).1 = Ok tt ->
    ro_detach ro = true \/ (exists m, (run_flow E ro d uri ins).1 = Panic m) \/ (run_flow E ro d uri ins).1 = Ok tt ->
    done_signals s1 = [tt].
  Proof.
    intros H Ho. destruct (begin_counts E d uri ro ins) as [[c R] (l & C & Cl)]. injection C as E1 E2 E3. rewrite (Cl H) in E3.
    rewrite (run_flow_body H) in *. destruct (loop_counts c _ R) as (m & Hm & (_ & _ & G) & _). rewrite E3 in G.
    pose proof (finally_shape loop _ s0 done_total) as F.
    assert (done_signals ((if ro_detach ro then ret tt else log_ev EvHandlerDone) (loop s0).2).2 = [tt]) as Hd.
    { destruct (ro_detach ro); [done|]. unfold done_signals, trace in *. cbn. rewrite omap_app. by rewrite G. }
    destruct (loop s0).1; rewrite F in *; simpl in *; try done; (destruct Ho as [Ho|[[? ?]|?]]; [|done|done]); by rewrite Ho in G.
  Qed.

  Lemma results : (run_flow E ro d uri ins).1 = Ok tt ->
    exists n y r, (n <= limit)%nat /\ s_step s1 = n /\
      (forall k, (k < n)%nat -> exists z, main_status (laps E k s0) = Some z /\ z < FCompleted) /\ s_insts (laps E n s0) !! 0%nat = Some y /\
      (n = limit \/ FCompleted <= i_status y \/ exists m, n = S m /\ (lap E (laps E m s0)).1 = Ok false) /\
      delivered s1 = delivered (laps E n s0) ++ r /\ last_results E ro (first_count ro + Z.of_nat n) y r /\
      main_status s1 = Some (i_status y).
  Proof.
    intros Hok. destruct (out_ok (run_begin E ro ins (init_st d uri)).1) as [H|H].
    2:{ destruct (run_flow_early H) as [_ Ho]. congruence. }
    destruct (begin_counts E d uri ro ins) as [[c R] (l & C & _)]. injection C as E1 E2 E3.
    rewrite (run_flow_body H) in *. destruct (loop_counts c _ R) as (m & Hm & (_ & G & _) & Hlow & Hd). rewrite E2 in G. simpl in G.
    pose proof (finally_shape loop _ s0 done_total) as F. destruct (loop s0).1 as [[]| | |] eqn:Ho; rewrite F in *; simpl in Hok; try done.
    destruct (Hd eq_refl) as (y & Hy & Hc & r & Hr & Hl & Hs). exists m, y, r. cbn [snd].
    assert (forall s, s_step ((if ro_detach ro then ret tt else log_ev EvHandlerDone) s).2 = s_step s /\
      delivered ((if ro_detach ro then ret tt else log_ev EvHandlerDone) s).2 = delivered s /\
      main_status ((if ro_detach ro then ret tt else log_ev EvHandlerDone) s).2 = main_status s) as He.
    { intros s. destruct (ro_detach ro); [done|]. split_and!; [done| |done]. change (delivered (p_log EvHandlerDone s) = delivered s).
      by rewrite delivered_log, app_nil_r. }
    destruct (He (loop s0).2) as (-> & -> & ->). split_and!; done.
  Qed.

  Lemma begin_running : (run_begin E ro ins (init_st d uri)).1 = Ok tt -> running E d uri s0.
  Proof. intros H. by constructor. Qed.
  Lemma failed_error : d_eh d = None -> (run_flow E ro d uri ins).1 = Ok tt -> main_status s1 = Some FFailed ->
    exists e, last (delivered s1) = Some (None, Some e).
  Proof.
    intros Hd Hok Hf. destruct (results Hok) as (n & y & r & _ & _ & _ & Hy & _ & -> & Hl & Hs). rewrite Hs in Hf. injection Hf as Hf.
    assert ((run_begin E ro ins (init_st d uri)).1 = Ok tt) as Hb.
    { destruct (out_ok (run_begin E ro ins (init_st d uri)).1) as [H|H]; [done|]. destruct (run_flow_early H) as [_ Ho]. congruence. }
    pose proof (running_sound _ _ _ _ (laps_running E d uri n _ (begin_running Hb))) as Hsound.
    unfold last_results in Hl. rewrite Hf in Hl. destruct (bool_decide (_ = ro_max ro)); simpl in Hl.
    - subst r. exists (limit_err E ro). by rewrite last_snoc.
    - assert (exists e, i_rerr y = Some e) as [e He].
      { destruct (Hsound y Hy) as [H1 H2]; [|destruct (H1 (H2 Hf)) as [_ H3]; cbn in H3; destruct (i_rerr y); eauto; done].
        destruct (running_reach _ _ _ _ (laps_running E d uri n _ (begin_running Hb))) as [c R].
        destruct (inv_main _ _ _ _ _ R) as (y' & Hy' & Hd' & _). assert (y' = y) as -> by congruence. cbn. by rewrite Hd'. }
      exists e. rewrite He in Hl. destruct Hl as [->|[-> _]]; [by rewrite last_snoc|].
      change [(None, None); (None, Some e)] with ([(None, None)] ++ [(@None vmap, Some e)]). by rewrite app_assoc, last_snoc.
  Qed.
End Whole.

Lemma ended_stays E n s z : main_status s = Some z -> FCompleted <= z -> after E n s = set_s_step (n + s_step s) s.
Proof.
  revert s. induction n as [|n IH]; intros s Hs Hz; [by destruct s|].
  cbn [after]. assert ((do_step E s).2 = set_s_step (S (s_step s)) s) as ->.
  { destruct (do_step_cases E s) as [->|(w & t & q & x & y & _ & _ & Hy & Ha & _)]; [done|].
    unfold main_status in Hs. rewrite Hy in Hs. injection Hs as <-. rewrite Ha in Hz. by vm_compute in Hz. }
  rewrite IH; [|done|done]. cbn [s_step set_s_step]. replace (n + S (s_step s))%nat with (S n + s_step s)%nat by lia. by destruct s.
Qed.
Lemma statuses_known E d uri s i y : visited E d uri s -> s_insts s !! i = Some y ->
  (statuses i s = [] /\ i_status y = FNotStarted) \/
  (exists r, statuses i s = FActive :: r /\ (forall z, z ∈ r -> z = FCompleted \/ z = FFailed) /\
     last (FActive :: r) = Some (i_status y)).
Proof.
  intros Hv Hy. destruct (visited_reach _ _ _ _ Hv) as [c R]. destruct (inv_stat E d uri c s R) as [_ H]. specialize (H i).
  unfold stat_of in H. rewrite Hy in H. cbn in H. destruct H as [?|(r & Hl & Hr & Hz)]; [by left|]. right. exists r.
  rewrite Hl in Hz. split_and!; [done| |done]. intros z Hin. exact (proj1 (Forall_forall _ r) Hr z Hin).
Qed.
Lemma limit_reported E ro d uri ins : first_count ro <= ro_max ro ->
  (run_flow E ro d uri ins).1 = Ok tt ->
  Z.of_nat (s_step (run_flow E ro d uri ins).2) = ro_max ro - first_count ro ->
  main_status (run_flow E ro d uri ins).2 <> Some FCompleted ->
  last (delivered (run_flow E ro d uri ins).2) = Some (None, Some (limit_err E ro)).
Proof.
  intros Hle Hok Hst Hnc. destruct (results E ro d uri ins Hok) as (n & y & r & _ & Hn & _ & _ & _ & -> & Hl & Hs).
  rewrite Hn in Hst. rewrite Hs in Hnc. unfold last_results in Hl.
  rewrite (bool_decide_eq_true_2 (_ = ro_max ro)) in Hl by lia. rewrite (bool_decide_eq_false_2 (i_status y = _)) in Hl by congruence.
  simpl in Hl. subst r. by rewrite last_snoc.
Qed.

(** ** When the loop of a run is over *)

(** Nothing to do: the main flow is not active or no work is queued. *)
Definition idle (s : st) : Prop := exists y, s_insts s !! 0%nat = Some y /\ (i_status y <> FActive \/ s_queue s = []).
Lemma record_same E s : s_insts (record_state E s).2 = s_insts s /\ s_queue (record_state E s).2 = s_queue s.
Proof.
  unfold record_state. destruct (e_rec E) as [m|]; [|done]. unfold bind.
  destruct (record_snapshot m), (record_steps m), (e_ext E); cbn; done.
Qed.
Lemma lap_same E s : s_insts (lap E s).2 = s_insts (do_step E s).2 /\ s_queue (lap E s).2 = s_queue (do_step E s).2.
Proof.
  unfold lap, bind. destruct (do_step E s) as [[b| | |]s1]; try done. cbn [snd].
  destruct (e_ext E); [|done]. pose proof (record_same E s1). by destruct (record_state E s1) as [[]?].
Qed.
Lemma idle_step E s : idle s -> (do_step E s).2 = set_s_step (S (s_step s)) s.
Proof.
  intros (y & Hy & H). destruct (do_step_cases E s) as [->|(w & t & q & x & y' & Hq & _ & Hy' & Ha & _)]; [done|].
  rewrite Hy in Hy'. injection Hy' as <-. destruct H; [done|]. congruence.
Qed.
Lemma idle_laps E n s : idle s -> s_insts (laps E n s) = s_insts s /\ idle (laps E n s).
Proof.
  revert s. induction n as [|n IH]; intros s H; [done|]. cbn [laps].
  destruct (lap_same E s) as [H1 H2]. rewrite (idle_step E s H) in H1, H2. cbn in H1, H2.
  destruct (IH (lap E s).2) as [-> Hi]; [|done]. destruct H as (y & Hy & H). exists y. by rewrite H1, H2.
Qed.
Lemma laps_add E n m s : laps E (n + m) s = laps E m (laps E n s).
Proof. revert s. induction n as [|n IH]; intros s; [done|]. cbn. apply IH. Qed.
Lemma lap_false_idle E s : (lap E s).1 = Ok false -> idle s.
Proof.
  intros H. assert ((do_step E s).1 = Ok false) as H1.
  { unfold lap, bind in H. destruct (do_step E s) as [[b| | |]s1]; try done.
    destruct ((if e_ext E then record_state E else ret tt) s1) as [[]?]; simpl in H; try done. }
  clear H. revert H1. unfold do_step, modify at 1, bind at 1. unfold bind at 1, get_inst, get, bind at 1. cbn [s_insts set_s_step].
  destruct (s_insts s !! 0%nat) as [y|] eqn:Hy; [|done]. unfold ret at 1. case_bool_decide as Ha; [|intros _; exists y; by split; [|left]].
  unfold bind at 1. cbn [s_queue set_s_step]. destruct (s_queue s) as [|[w t] q] eqn:Hq; [intros _; exists y; by split; [|right]|].
  unfold bind at 1, get_ti, get, bind at 1. destruct (s_tis _ !! t); [|done]. unfold ret at 1, bind at 1, log_ev, modify, bind at 1, bind at 1.
  match goal with |- context [exec_task E t ?s3] => by destruct (exec_task E t s3) as [[]?] end.
Qed.

(** If the main flow has ended after some rounds within the limit, the run ends with this. *)
Lemma run_ends E ro d uri ins n y :
  let begun := (run_begin E ro ins (init_st d uri)).2 in
  (run_flow E ro d uri ins).1 = Ok tt -> s_insts (laps E n begun) !! 0%nat = Some y -> FCompleted <= i_status y ->
  (Z.of_nat n < ro_max ro - first_count ro) ->
  exists m r, delivered (run_flow E ro d uri ins).2 = delivered (laps E m begun) ++ r /\
    last_results E ro (first_count ro + Z.of_nat m) y r /\ first_count ro + Z.of_nat m <> ro_max ro /\
    main_status (run_flow E ro d uri ins).2 = Some (i_status y).
Proof.
  cbv zeta. set (b := (run_begin E ro ins (init_st d uri)).2). intros Hok Hy Hf Hn.
  destruct (results E ro d uri ins Hok) as (m & y' & r & Hm & _ & Hlow & Hy' & Hend & Hdel & Hl & Hs). fold b in Hlow, Hy', Hend, Hdel.
  assert (i_status y <> FActive) as Ha by (intros H; rewrite H in Hf; by vm_compute in Hf).
  assert (m <= n)%nat as Hle.
  { destruct (decide (m <= n)%nat) as [|Hgt]; [done|]. destruct (Hlow n) as (z & Hz & Hlt); [lia|].
    unfold main_status in Hz. rewrite Hy in Hz. injection Hz as <-. lia. }
  assert (idle (laps E m b) -> y' = y) as Hsame.
  { intros Hi. destruct (idle_laps E (n - m) _ Hi) as [Hi' _]. rewrite <- laps_add in Hi'. replace (m + (n - m))%nat with n in Hi' by lia. congruence. }
  assert (y' = y) as ->.
  { apply Hsame. destruct Hend as [->|[H|(m' & -> & H)]].
    - lia.
    - exists y'. split; [done|]. left. intros H'. rewrite H' in H. by vm_compute in H.
    - apply lap_false_idle in H. rewrite laps_S. destruct H as (y0 & Hy0 & H). destruct (lap_same E (laps E m' b)) as [H1 H2].
      rewrite (idle_step E (laps E m' b)) in H1, H2 by (exists y0; done). exists y0. rewrite H1, H2. done. }
  exists m, r. split_and!; [done|done|lia|done].
Qed.
