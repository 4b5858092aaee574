(** Runs that end without a result. No Go counterpart (proof infrastructure). *)
From Verif Require Export Ending Entering.
From Verif Require Findings.
Local Open Scope Z_scope.

(** ** Nothing is left to do *)
Lemma lap_false E s : (lap E s).1 = Ok false -> main_status (lap E s).2 = Some FActive -> s_queue (lap E s).2 = [].
Proof.
  destruct (lap_same E s) as [Hi Hq]. unfold main_status. rewrite Hi, Hq. clear Hi Hq. unfold lap, bind at 1.
  destruct (do_step E s) as [[b| | |] s1] eqn:Hd; try done. intros Hl.
  assert (b = false) as ->.
  { revert Hl. unfold bind. destruct ((if e_ext E then record_state E else ret tt) s1) as [[]?]; try done. by intros [= ->]. }
  clear Hl. cbn [snd]. revert Hd. unfold do_step, modify, bind at 1, get_inst, bind at 1 2, get.
  destruct (s_insts (set_s_step (S (s_step s)) s) !! 0%nat) as [y|] eqn:Hy; [|done]. unfold ret at 1. case_bool_decide as Ha.
  - unfold bind at 1. destruct (s_queue (set_s_step (S (s_step s)) s)) as [|[w t] q] eqn:Hq; [by intros [= <-]|].
    unfold bind, get_ti, get, bind. destruct (s_tis _ !! t); [|done]. unfold ret at 1. cbn beta iota delta [log_ev modify].
    destruct (exec_task E t _) as [[]?]; done.
  - intros [= <-]. rewrite Hy. cbn. intros [= ?]. done.
Qed.
(** The end of a run leaves an active flow as it is. *)
Lemma finish_active E ro k s y : s_insts s !! 0%nat = Some y -> i_status y = FActive ->
  s_queue (run_finish E ro k s).2 = s_queue s /\ main_status (run_finish E ro k s).2 = Some FActive.
Proof.
  intros Hy Ha. assert (main_status s = Some FActive) as Hm by (unfold main_status; rewrite Hy; cbn; by rewrite Ha).
  cut (forall r, run_finish E ro k s = r -> s_queue r.2 = s_queue s /\ main_status r.2 = Some FActive); [eauto|]. intros r.
  unfold run_finish. rewrite (eval_get_inst _ _ _ _ Hy). rewrite Ha. change (FActive =? FCompleted) with false. change (FActive =? FFailed) with false.
  destruct (k =? ro_max ro); cbn [andb negb]; [intros <-; by split|].
  unfold bind at 1, ret at 1. destruct (e_ext E); [|intros <-; by split].
  unfold flow_state. unfold bind at 1 2. unfold get_return_data. rewrite (eval_get_inst _ _ _ _ Hy).
  destruct (i_rdata y); [intros <-; by split|]. destruct (d_md (i_def y)) as [[? [mdo|]]|]; [|intros <-; by split..]. intros <-. split; [done|].
  unfold main_status. cbn. rewrite lookup_alter, Hy. cbn. by rewrite Ha.
Qed.
Lemma run_idle E ro d uri ins : (run_flow E ro d uri ins).1 = Ok tt -> main_status (run_flow E ro d uri ins).2 = Some FActive ->
  Z.of_nat (s_step (run_flow E ro d uri ins).2) < ro_max ro - first_count ro -> s_queue (run_flow E ro d uri ins).2 = [].
Proof.
  intros Hok. destruct (out_ok (run_begin E ro ins (init_st d uri)).1) as [H|H].
  2:{ destruct (run_flow_early E ro d uri ins H) as [_ Ho]. congruence. }
  destruct (begin_counts E d uri ro ins) as [[c R] (l0 & C & _)]. injection C as E1 E2 E3. cbn in E2.
  rewrite (run_flow_body E ro d uri ins H) in *. set (s0 := (run_begin E ro ins (init_st d uri)).2) in *. set (lim := Z.to_nat (ro_max ro - first_count ro)) in *.
  set (loop := bind (run_loop E lim (first_count ro)) (run_finish E ro)) in *.
  pose proof (finally_shape loop _ s0 (done_total ro)) as F. destruct (loop s0) as [[[]| | |] s1] eqn:Ho; cbn [fst snd] in F; rewrite F in *; cbn [fst] in Hok; try done.
  cbn [snd]. assert (forall s, s_queue ((if ro_detach ro then ret tt else log_ev EvHandlerDone) s).2 = s_queue s /\
    s_step ((if ro_detach ro then ret tt else log_ev EvHandlerDone) s).2 = s_step s /\
    main_status ((if ro_detach ro then ret tt else log_ev EvHandlerDone) s).2 = main_status s) as He by (intros s; by destruct (ro_detach ro)).
  destruct (He s1) as (-> & -> & ->). clear He F Hok. intros Ha Hlt.
  destruct (run_loop_shape E lim (first_count ro) s0) as (m & Hm & Hlow & Hs & Hk). destruct (laps_counts E d uri m c s0 R) as [[c' R'] (_ & G & _)].
  unfold loop, bind in Ho. destruct (run_loop E lim (first_count ro) s0) as [[k'| | |]s2]; cbn [snd] in Hs; subst s2; try done.
  destruct (Hk k' eq_refl) as [-> Hc]. destruct (inv_main _ _ _ _ _ R') as (y & Hy & _).
  destruct (calm_finish E d uri ro (first_count ro + Z.of_nat m) c' _ R') as [_ C']. rewrite Ho in C'. injection C' as _ C' _. cbn [snd] in C'.
  pose proof (run_finish_results E ro (first_count ro + Z.of_nat m) (laps E m s0) y Hy tt s1 Ho) as (r & _ & _ & Hms).
  assert (i_status y = FActive) as Hya by congruence.
  pose proof (finish_active E ro (first_count ro + Z.of_nat m) _ y Hy Hya) as [Hq _]. rewrite Ho in Hq. cbn [snd] in Hq. rewrite Hq.
  assert (main_status (laps E m s0) = Some FActive) as Hma by (unfold main_status; by rewrite Hy, <- Hya).
  destruct Hc as [->|[(z & Hz & Hge)|(m' & -> & Hf)]].
  - rewrite C', G, E2 in Hlt. unfold lim in Hlt. lia.
  - rewrite Hma in Hz. injection Hz as <-. done.
  - rewrite laps_S in *. by apply lap_false.
Qed.

(** ** A flow without start tasks *)
Definition barren (s : st) : Prop := unlogged s /\ main_status s = Some FActive /\ s_queue s = [] /\ s_tis s = ∅.
Lemma no_start_barren E d uri ins : start_tasks (d_tasks d) = [] -> barren (started E d uri ins).
Proof.
  intros Hst. unfold started. destruct (started_first E d uri ins) as (s1 & -> & y & HI & _ & _ & Ha & Hd & Ht & _ & _ & _ & _ & Htis & Hn & Hq & _ & _ & _ & _ & Hl & l0 & l & Hlog & Hev).
  assert (start_entries (d_tasks d) = []) as -> by (unfold start_entries; change leading with (fun u => match t_from u with [] => true | _ => false end); fold (start_tasks (d_tasks d)); by rewrite Hst).
  assert (s_insts s1 !! 0%nat = Some y) as Hy by (by rewrite HI, lookup_singleton).
  assert (barren s1) as B.
  { split; [|split_and!; [unfold main_status; rewrite Hy; cbn; by rewrite Ha|done|done]].
    intros e He. rewrite Hlog in He. apply elem_of_app in He as [He|[->|He]%elem_of_cons]; [|done|];
      (assert (quiet_ev e) as Hq' by (apply Hev; rewrite elem_of_app; tauto)); by destruct e. }
  unfold enter_top. unfold bind at 1. rewrite (eval_get_inst _ _ _ _ Hy), Hd. cbn [enter_tasks]. unfold with_lock. destruct (e_conc E).
  - unfold bind at 1, get. rewrite Hl. exact B.
  - exact B.
Qed.
Lemma no_start_stalls E d uri ins : start_tasks (d_tasks d) = [] ->
  forall n, let s := after E n (started E d uri ins) in main_status s = Some FActive /\ evaluations s = [] /\ delivered s = [] /\ s_queue s = [] /\
    forall t, s_tis s !! t = None.
Proof.
  intros Hst n. cbv zeta. assert (barren (after E n (started E d uri ins))) as (U & Hm & Hq & Ht).
  - pose proof (no_start_barren E d uri ins Hst) as B. revert B. generalize (started E d uri ins). induction n as [|n IH]; intros s B; [done|]. cbn [after]. apply IH.
    assert (exists y, s_insts s !! 0%nat = Some y) as [y Hy] by (destruct B as (_ & Hm & _); unfold main_status in Hm; destruct (s_insts s !! 0%nat); eauto; done).
    rewrite (Findings.do_step_idle E s y Hy (proj1 (proj2 (proj2 B)))). exact B.
  - destruct (unlogged_nothing _ U). split_and!; try done. intros t. rewrite Ht. apply lookup_empty.
Qed.

(** ** Nothing is forgotten *)
Section Open.
  Local Set Default Proof Using "Type*".
  Context (E : env) (d : defn) (uri : string) (SF : simple_flow d) (OE : orderly E) (EH : no_takeover E d).
  Notation md := (mk_mode False False).
  (** The task is queued or waits. *)
  Definition in_hand (s : st) (tk : task) : Prop := exists y t x, s_insts s !! 0%nat = Some y /\ i_tasks y !! t_id tk = Some t /\ s_tis s !! t = Some x /\
    ti_task x = tk /\ ti_inst x = 0%nat /\ (t ∈ (s_queue s).*2 \/ ti_status x = TWaiting).
  Lemma open_above F V y s : inv d md False None [] F V y s -> forall tk, tk ∈ d_tasks d -> F !! t_id tk = None ->
    exists tk', tk' ∈ d_tasks d /\ above d (t_id tk') (t_id tk) /\ in_hand s tk'.
  Proof.
    intros I tk Htk HF. destruct SF as (B & AC & PT & NS). pose proof (built_graph d B) as G. destruct (above_rank d G AC) as [r Hr].
    remember (r (t_id tk)) as n eqn:Hn. revert tk Htk HF Hn. induction (lt_wf n) as [n _ IH]. intros tk Htk HF ->.
    destruct (decide (Forall (fun l => is_Some (F !! l_from l)) (t_from tk))) as [Hall|Hno].
    - exists tk. split; [done|]. split; [apply rtc_refl|].
      destruct (iv_ready _ _ _ _ _ _ _ _ _ I tk Htk HF ltac:(done)) as (u & x & Hu & Hx & Hc); [|by intros ?%elem_of_nil|].
      { intros l Hl. rewrite Forall_forall in Hall. by apply Hall. }
      destruct (iv_reg _ _ _ _ _ _ _ _ _ I _ _ Hu) as (tk' & x' & Htk' & Hid & Hx' & Hi & Ht & _ & _).
      assert (x' = x) as -> by congruence. exists y, u, x. split; [apply I|]. split_and!; try done.
      rewrite Ht. by apply (g_task_inj d G).
    - apply not_Forall_Exists in Hno; [|apply _]. apply Exists_exists in Hno as (l & Hl & Hn). apply (g_from d G) in Hl as [Hl Hto]; [|done].
      destruct (g_source d G l Hl) as (tk' & Htk' & Hid). destruct (IH (r (t_id tk'))) with (tk := tk') as (tk2 & Htk2 & Hab & Hh); [|done| |done|].
      + rewrite Hid, <- Hto. by apply Hr.
      + rewrite Hid. cbn in Hn. destruct (F !! l_from l) eqn:?; [|done]. destruct Hn; eauto.
      + exists tk2. split_and!; [done| |done]. eapply rtc_transitive; [exact Hab|]. change (above d (t_id tk') (t_id tk)). rewrite Hid, <- Hto. by apply above_link.
  Qed.
  Lemma visited_inv s : visited E d uri s -> main_status s = Some FActive -> exists F V y, inv d md False None [] F V y s /\ Finish.fin d F y.
  Proof.
    intros V Hm. destruct SF as (B & AC & PT & NS). destruct OE as (NC & SO & C & L & NSF).
    destruct (visited_on d md False (built_graph d B) AC NS PT E EH NC SO C L NSF ltac:(done) ltac:(done) ltac:(done) ltac:(done) uri s V)
      as [F [(V' & y & I & Hf)|((y & Hy & Hn) & _)]]; [eauto 6|].
    unfold main_status in Hm. rewrite Hy in Hm. cbn in Hm. congruence.
  Qed.
  Lemma not_forgotten s : visited E d uri s -> main_status s = Some FActive ->
    (forall tk, tk ∈ d_tasks d -> (forall z, ends z -> ~ task_got s (t_id tk) z) ->
       exists tk', tk' ∈ d_tasks d /\ rtc (edge d) (false, t_id tk') (false, t_id tk) /\ in_hand s tk') /\
    (d_tasks d <> [] -> exists tk, tk ∈ d_tasks d /\ in_hand s tk).
  Proof.
    intros Vs Hm. destruct (visited_inv s Vs Hm) as (F & V & y & I & Hf). split.
    - intros tk Htk Hno. apply (open_above F V y s I tk Htk). destruct (F !! t_id tk) as [z|] eqn:Hz; [|done]. exfalso.
      apply (Hno z); [by apply (iv_F _ _ _ _ _ _ _ _ _ I _ _ Hz)|]. apply (to_F _ _ _ _ _ _ _ (iv_told _ _ _ _ _ _ _ _ _ I)) in Hz.
      unfold task_got, trace. by rewrite elem_of_list_In, <- in_rev, <- elem_of_list_In.
    - intros NE. pose proof (iv_y _ _ _ _ _ _ _ _ _ I) as Hy. unfold main_status in Hm. rewrite Hy in Hm. injection Hm as Ha.
      destruct (decide (Forall (fun tk => is_Some (F !! t_id tk)) (d_tasks d))) as [Hall|Hno].
      + exfalso. rewrite Forall_forall in Hall. specialize (Hf NE Hall). rewrite Ha in Hf. done.
      + apply not_Forall_Exists in Hno; [|apply _]. apply Exists_exists in Hno as (tk & Htk & Hn). cbn in Hn.
        destruct (F !! t_id tk) as [z|] eqn:Hz; [destruct Hn; eauto|]. destruct (open_above F V y s I tk Htk Hz) as (tk' & ? & _ & ?). eauto.
  Qed.
  Lemma run_waits ro ins : d_tasks d <> [] -> (run_flow E ro d uri ins).1 = Ok tt -> main_status (run_flow E ro d uri ins).2 = Some FActive ->
    Z.of_nat (s_step (run_flow E ro d uri ins).2) < ro_max ro - first_count ro ->
    exists y tk t x, s_insts (run_flow E ro d uri ins).2 !! 0%nat = Some y /\ tk ∈ d_tasks d /\ i_tasks y !! t_id tk = Some t /\
      s_tis (run_flow E ro d uri ins).2 !! t = Some x /\ ti_task x = tk /\ ti_status x = TWaiting.
  Proof.
    intros NE Hok Ha Hlt. pose proof (run_idle E ro d uri ins Hok Ha Hlt) as Hq.
    destruct (proj2 (not_forgotten _ (or_intror (ex_intro _ ro (ex_intro _ ins eq_refl))) Ha) NE) as (tk & Htk & y & t & x & Hy & Ht & Hx & Hxt & _ & Hc).
    rewrite Hq in Hc. destruct Hc as [Hc|Hc]; [by apply elem_of_nil in Hc|]. exists y, tk, t, x. by split_and!.
  Qed.
End Open.
