(** The main flow of an instance without error handler: it handles an error only by failing with
    it. Proofs about functions called after an evaluation; no Go counterpart. *)
From Verif Require Export Exact.
Local Open Scope Z_scope.

(** The part of a flow instance looked at here. *)
Definition core (y : inst) : bool * Z * option err * defn := (i_handling y, i_status y, i_rerr y, i_def y).
Definition sound_core (c : bool * Z * option err * defn) : Prop :=
  d_eh c.2 = None ->
  (c.1.1.1 = true -> c.1.1.2 <> FActive /\ c.1.2 <> None) /\ (c.1.1.2 = FFailed -> c.1.1.1 = true).
Definition sound (s : st) : Prop := forall y, s_insts s !! 0%nat = Some y -> sound_core (core y).

Section Keep.
  Context (E : env).
  Local Set Default Proof Using "Type".

  Definition kp {A} (m : M A) : Prop := forall s, sound s -> sound (m s).2.
  Lemma kp_ret {A} (a : A) : kp (ret a).
  Proof. by intros s. Qed.
  Lemma kp_panic {A} msg : kp (A:=A) (panic msg).
  Proof. by intros s. Qed.
  Lemma kp_fuel {A} : kp (A:=A) out_of_fuel.
  Proof. by intros s. Qed.
  Lemma kp_blocked {A} : kp (A:=A) (fun s => (Blocked, s)).
  Proof. by intros s. Qed.
  Lemma kp_get : kp get.
  Proof. by intros s. Qed.
  Lemma kp_bind {A B} (m : M A) (k : A -> M B) : kp m -> (forall a, kp (k a)) -> kp (bind m k).
  Proof.
    intros Hm Hk s H. specialize (Hm s H). unfold bind. destruct (m s) as [[a| | |] s1]; try done. by apply Hk.
  Qed.
  Lemma kp_catch {A} (m : M A) h : kp m -> (forall e, kp (h e)) -> kp (catch m h).
  Proof.
    intros Hm Hk s H. specialize (Hm s H). unfold catch. destruct (m s) as [[a|e| |] s1]; try done. by apply Hk.
  Qed.
  Lemma kp_finally {A} (m : M A) f : kp m -> kp f -> kp (finally m f).
  Proof.
    intros Hm Hf. unfold finally. apply kp_bind.
    - apply kp_catch; [apply kp_bind; [done|intros; apply kp_ret]|intros; apply kp_ret].
    - intros r. apply kp_bind; [done|]. intros _. destruct r; [apply kp_panic|apply kp_ret].
  Qed.
  Lemma kp_iterM {A} (f : A -> M unit) l : (forall x, kp (f x)) -> kp (iterM f l).
  Proof. intros Hf. induction l; simpl; [apply kp_ret|]. by apply kp_bind. Qed.
  Lemma kp_modify f : (forall s, s_insts (f s) = s_insts s) -> kp (modify f).
  Proof. intros Hf s H. unfold modify, sound. cbn [snd]. by rewrite Hf. Qed.
  Lemma kp_upd_inst i f : (forall y, core (f y) = core y) -> kp (upd_inst i f).
  Proof.
    intros Hf s H y. unfold upd_inst, modify. cbn. destruct (decide (i = 0%nat)) as [->|].
    - rewrite lookup_alter. destruct (s_insts s !! 0%nat) as [y0|] eqn:Hy; [|done]. intros [= <-]. rewrite Hf. by apply H.
    - rewrite lookup_alter_ne by done. apply H.
  Qed.
  Lemma kp_get_ti t : kp (get_ti t).
  Proof. intros s H. unfold get_ti, bind, get. by destruct (s_tis s !! t). Qed.
  Lemma kp_get_inst t : kp (get_inst t).
  Proof. intros s H. unfold get_inst, bind, get. by destruct (s_insts s !! t). Qed.
  Lemma kp_log e : kp (log_ev e).
  Proof. by apply kp_modify. Qed.
  Lemma kp_upd_ti t f : kp (upd_ti t f).
  Proof. by apply kp_modify. Qed.

  Ltac go := repeat first
    [ apply kp_ret | apply kp_panic | apply kp_fuel | apply kp_get | apply kp_get_ti | apply kp_get_inst | apply kp_log
    | apply kp_upd_ti | (apply kp_upd_inst; reflexivity) | (apply kp_modify; reflexivity) | (apply kp_iterM; intros ?)
    | lazymatch goal with |- kp (bind _ _) => apply kp_bind; [|intros ?] end ].

  Lemma kp_set_attrs tr i m : kp (set_attrs tr i m).
  Proof. unfold set_attrs. go. Qed.
  Lemma kp_set_value i n v : kp (set_value E i n v).
  Proof. apply kp_set_attrs. Qed.
  Lemma kp_return_data i : kp (get_return_data i).
  Proof. unfold get_return_data. go. destruct (i_rdata a); [go|]. destruct (d_md (i_def a)) as [[? []]|]; go. Qed.
  Lemma kp_post_flow i : kp (post_flow_event E i).
  Proof.
    unfold post_flow_event. destruct (e_listener E); [|go]. go. destruct (bool_decide _); [go|]. go. apply kp_return_data.
  Qed.
  Lemma kp_set_task_status t z : kp (set_task_status t z).
  Proof. unfold set_task_status. go. Qed.
  Lemma kp_track t : kp (track_task t).
  Proof. unfold track_task. go. Qed.
  Lemma kp_find_task i tk : kp (find_or_create_task i tk).
  Proof. unfold find_or_create_task. go. destruct (i_tasks a !! _); [go|]. go. unfold new_tinst. destruct (t_act tk); go. Qed.
  Lemma kp_find_link i l : kp (find_or_create_link i l).
  Proof. unfold find_or_create_link. go. destruct (i_links a !! _); go. Qed.
  Lemma kp_from_links t : kp (from_links t).
  Proof. unfold from_links. go. apply kp_find_link. Qed.
  Lemma kp_to_links t : kp (to_links t).
  Proof. unfold to_links. go. apply kp_find_link. Qed.
  Lemma kp_cov c i id : kp (need_cov c i id).
  Proof. unfold need_cov. destruct (ic_cov c); go. Qed.
  Lemma kp_set_link i l z : kp (set_link_status E i l z).
  Proof. unfold set_link_status. go. destruct (bool_decide _); [|go]. destruct (e_icpt E); [apply kp_cov|go]. Qed.
  Lemma kp_release i tk : kp (release_task i tk).
  Proof. unfold release_task. go. Qed.
  Lemma kp_schedule t : kp (schedule_eval t).
  Proof. unfold schedule_eval. go. Qed.
  Lemma kp_record : kp (record_state E).
  Proof.
    unfold record_state. destruct (e_rec E); [|go]. go.
    - destruct (record_snapshot r); [|go]. destruct (e_ext E); go.
    - destruct (record_steps r); [|go]. destruct (e_ext E); go.
  Qed.
  Lemma kp_tick : kp tick.
  Proof. unfold tick. go. Qed.
  Lemma kp_ext {A} t (f : nat -> view -> A) : kp (ext t f).
  Proof. unfold ext. go. Qed.
  Lemma kp_append t e : kp (append_error_data E t e).
  Proof. unfold append_error_data. go; apply kp_set_value. Qed.
  Lemma kp_task_error t e : kp (set_task_error E t e).
  Proof. unfold set_task_error. go; apply kp_set_value. Qed.
  Lemma kp_add_cov t : kp (add_activity_coverage E t).
  Proof.
    unfold add_activity_coverage. destruct (e_icpt E); [|go]. go; [|apply kp_cov].
    destruct (ic_collect i); go; [apply kp_from_links|apply kp_to_links].
  Qed.
  Lemma kp_lock {A} (m : M A) : kp m -> kp (with_lock E m).
  Proof.
    intros Hm. unfold with_lock. destruct (e_conc E); [|done]. apply kp_bind; [go|]. intros s.
    destruct (s_lock s); [apply kp_blocked|]. apply kp_bind; [go|]. intros _. apply kp_finally; [done|go].
  Qed.
  Lemma kp_settings t : kp (apply_settings E t).
  Proof. unfold apply_settings. go. destruct (t_set _); [|go]. apply kp_bind; [apply kp_ext|]. intros []; go. Qed.
  Lemma kp_enter t : kp (enter t).
  Proof.
    unfold enter. go; [apply kp_set_task_status|apply kp_from_links|].
    destruct (scan_links _ _ _) as [[]|]; go; apply kp_set_task_status.
  Qed.
  Lemma kp_enter_list skip i es : (forall t, kp (skip t)) -> kp (enter_list E skip i es).
  Proof.
    intros Hs. induction es as [|[tk c] es IH]; simpl; [go|]. go; [apply kp_find_task|].
    destruct (e_conc E && ti_sched a0); [done|]. go; [apply kp_enter|]. destruct a1; [done| |].
    - go; [apply kp_settings|]. destruct a1; [go|]. go; [apply kp_schedule|done].
    - go; done.
  Qed.
  Lemma kp_clear : kp clear_tasks.
  Proof. unfold clear_tasks. go. Qed.
  Lemma kp_host i : kp (host_of i).
  Proof. unfold host_of. go. Qed.

  (** Changing the status of a flow. *)
  Lemma sound_fstat i z s :
    sound s -> (i = 0%nat -> forall y, s_insts s !! 0%nat = Some y -> sound_core (i_handling y, z, i_rerr y, i_def y)) ->
    sound (p_fstat i z s).
  Proof.
    intros H Hz y. unfold p_fstat. cbn. destruct (decide (i = 0%nat)) as [->|].
    - rewrite lookup_alter. destruct (s_insts s !! 0%nat) as [y0|] eqn:Hy; [|done]. intros [= <-]. exact (Hz eq_refl y0 eq_refl).
    - rewrite lookup_alter_ne by done. apply H.
  Qed.
  Lemma kp_set_flow_status i z :
    (forall s, sound s -> i = 0%nat -> forall y, s_insts s !! 0%nat = Some y -> sound_core (i_handling y, z, i_rerr y, i_def y)) ->
    kp (set_flow_status E i z).
  Proof.
    intros Hz s H. unfold set_flow_status, bind at 1, get_inst, bind at 1, get. destruct (s_insts s !! i) as [y|]; [|done].
    unfold ret at 1. change (sound (post_flow_event E i (p_fstat i z s)).2). apply kp_post_flow. apply sound_fstat; eauto.
  Qed.
  Lemma kp_completed i : kp (set_flow_status E i FCompleted).
  Proof.
    apply kp_set_flow_status. intros s H -> y Hy Hd. destruct (H y Hy Hd) as [H1 H2]. simpl in *. split; [|done].
    intros Hh. destruct (H1 Hh). done.
  Qed.
  Lemma kp_failed_sub i : i <> 0%nat -> kp (set_flow_status E i FFailed).
  Proof. intros Hi. by apply kp_set_flow_status. Qed.

  Lemma kp_global ent i e : (forall j es, kp (ent j es)) -> kp (handle_global_error E ent i e).
  Proof.
    intros He. unfold handle_global_error. intros s H. unfold bind at 1, get_inst, bind at 1, get.
    destruct (s_insts s !! i) as [y|] eqn:Hy; [|done]. unfold ret at 1.
    destruct (i_handling y) eqn:Hh.
    { revert s H Hy. change (forall s, sound s -> s_insts s !! i = Some y -> sound (set_flow_status E i FFailed s).2).
      intros s H Hy. destruct (decide (i = 0%nat)) as [->|Hi]; [|by apply kp_failed_sub].
      unfold set_flow_status, bind at 1, get_inst, bind at 1, get. rewrite Hy. unfold ret at 1.
      change (sound (post_flow_event E 0 (p_fstat 0 FFailed s)).2). apply kp_post_flow. apply sound_fstat; [done|].
      intros _ y' Hy'. rewrite Hy in Hy'. injection Hy' as <-. intros Hd. destruct (H y Hy Hd) as [H1 H2]. simpl in *.
      rewrite Hh in *. split; [|done]. intros _. split; [done|]. by destruct H1. }
    unfold bind at 1, upd_inst at 1, modify at 1. cbn iota.
    destruct (d_eh (i_def y)) as [h|] eqn:Hd.
    - set (s1 := set_s_insts _ s). assert (sound s1) as H1.
      { intros y1. unfold s1. cbn. destruct (decide (i = 0%nat)) as [->|].
        - rewrite lookup_alter, Hy. intros [= <-]. intros Hd'. simpl in Hd'. by rewrite Hd in Hd'.
        - rewrite lookup_alter_ne by done. apply H. }
      clearbody s1. revert s1 H1. change (kp (clear_tasks ;; ent i (start_entries (eh_tasks h)) ;; ret tt)).
      apply kp_bind; [apply kp_clear|]. intros _. apply kp_bind; [apply He|]. intros; apply kp_ret.
    - destruct (decide (i = 0%nat)) as [->|Hi].
      + set (s1 := set_s_insts _ s).
        assert (s_insts s1 !! 0%nat = Some (set_i_handling true y)) as Hy1 by (unfold s1; cbn; by rewrite lookup_alter, Hy).
        clearbody s1. clear H Hy s. intros y2. unfold bind at 1. rewrite (set_flow_status_eq _ _ _ _ _ Hy1).
        cbn. rewrite !lookup_alter, Hy1. intros [= <-]. intros _. simpl.
        destruct (posted_fields E FFailed (set_i_status FFailed (set_i_handling true y))) as (_ & -> & -> & _). done.
      + set (s1 := set_s_insts _ s). assert (sound s1) as H1.
        { intros y1. unfold s1. cbn. rewrite lookup_alter_ne by done. apply H. }
        clearbody s1. revert s1 H1. destruct (i =? 0)%nat eqn:Ei; [by apply Nat.eqb_eq in Ei|].
        apply (kp_bind (set_flow_status E i FFailed)); [by apply kp_failed_sub|]. intros _. go; [apply kp_record|apply kp_host|].
        destruct a0; [|go]. go. apply kp_schedule.
  Qed.
  Lemma kp_complete i : kp (complete_flow E i).
  Proof.
    unfold complete_flow. apply kp_bind; [apply kp_completed|]. intros _. destruct (i =? 0)%nat; [go|]. go.
    destruct (i_host a); go. apply kp_schedule.
  Qed.
  Lemma kp_entries i es : kp (entries_of i es).
  Proof. unfold entries_of. go. destruct (resolve_entries _ _); go. Qed.
  Lemma kp_eval_link t l : kp (eval_link E t l).
  Proof.
    unfold eval_link. go. destruct (l_expr l); [|go]. apply kp_bind; [apply kp_ext|]. intros []; go.
  Qed.
  Lemma kp_done_links t i ls a : kp (done_links E t i ls a).
  Proof.
    revert a. induction ls as [|l ls IH]; intros a; simpl; [go|]. apply kp_bind; [|intros []; [go|apply IH]].
    unfold done_link. go; [apply kp_set_link|]. destruct (l_type l); go; try apply kp_set_link; try apply kp_eval_link.
    destruct a1 as [|[]]; go. apply kp_set_link.
  Qed.
  Lemma kp_beh_done t : kp (beh_done E t).
  Proof.
    unfold beh_done. go; [apply kp_to_links|apply kp_set_task_status|]. destruct a; [go|]. apply kp_bind; [apply kp_done_links|].
    intros []; [go|]. go; [|apply kp_entries]. destruct (da_oth d); [|go]. destruct (_ && _); go. apply kp_set_link.
  Qed.
  Lemma kp_beh_skip t : kp (beh_skip E t).
  Proof.
    unfold beh_skip. cbv zeta. go; [apply kp_to_links|apply kp_set_task_status|]. destruct a; [go|]. go; [apply kp_set_link|apply kp_entries].
  Qed.
  Lemma kp_beh_error t : kp (beh_error E t).
  Proof.
    unfold beh_error. go; [apply kp_to_links|]. destruct (existsb _ _); [|go]. go; [apply kp_set_link|apply kp_entries].
  Qed.
  Lemma kp_flow_done i : kp (flow_task_done i).
  Proof. unfold flow_task_done. go. Qed.
  Lemma kp_done ent t : (forall j es, kp (ent j es)) -> kp (handle_task_done E ent t).
  Proof.
    intros He. unfold handle_task_done. apply kp_bind; [go|]. intros x. cbv zeta. apply kp_bind.
    { destruct (bool_decide _); go; [apply kp_beh_skip|apply kp_beh_done|apply kp_add_cov]. }
    intros [e|[nt es]].
    - go; [apply kp_append|by apply kp_global].
    - go; [destruct nt; [apply kp_flow_done|go]| |apply kp_release]. destruct (_ || _); [apply kp_complete|].
      go. apply He.
  Qed.
  Lemma kp_enter_tasks n i es : kp (enter_tasks E n i es).
  Proof.
    revert i es. induction n as [|n IH]; intros i es; cbn [enter_tasks]; apply kp_lock, kp_enter_list; intros t; [go|].
    by apply kp_done.
  Qed.
  Lemma kp_enter_top i es : kp (enter_top E i es).
  Proof. unfold enter_top. go. apply kp_enter_tasks. Qed.
  Lemma kp_task_done t : kp (task_done E t).
  Proof. apply kp_done. apply kp_enter_top. Qed.
  Lemma kp_global_error i e : kp (global_error E i e).
  Proof. apply kp_global. apply kp_enter_top. Qed.
  Lemma kp_failed_handling i y s : s_insts s !! i = Some y -> i_handling y = true -> sound s -> sound (set_flow_status E i FFailed s).2.
  Proof.
    intros Hy Hh H. pose proof (kp_global (fun _ _ => ret None) i (EOther "") (fun _ _ => kp_ret _) s H) as HK.
    unfold handle_global_error, bind at 1, get_inst, bind at 1, get in HK. rewrite Hy in HK. unfold ret at 1 in HK. by rewrite Hh in HK.
  Qed.
  Lemma kp_task_error_handling t e : kp (handle_task_error E t e).
  Proof.
    unfold handle_task_error. go; [apply kp_set_task_status|apply kp_add_cov|apply kp_beh_error|].
    cbv zeta. destruct (a1.1).
    - go; [apply kp_task_error| |apply kp_release]. destruct (a1.2); [go|]. go. apply kp_enter_top.
    - intros s H. unfold bind at 1, get_inst, bind at 1, get. destruct (s_insts s !! ti_inst a2) as [y|] eqn:Hy; [|done].
      unfold ret at 1. destruct (i_handling y) eqn:Hh.
      + pose proof (kp_failed_handling _ _ _ Hy Hh H) as H1. unfold bind at 1.
        destruct (set_flow_status E (ti_inst a2) FFailed s) as [[[]| | |] s1]; try done. simpl in H1. revert s1 H1.
        match goal with |- forall s1, sound s1 -> sound (?m s1).2 => change (kp m) end.
        destruct (_ =? 0)%nat; [apply kp_append|]. go; [apply kp_record|]. destruct (i_host y); go. apply kp_schedule.
      + revert s H Hy. match goal with |- forall s, sound s -> _ -> sound (?m s).2 => cut (kp m); [intros HK s H _; by apply HK|] end.
        apply kp_bind; [apply kp_append|]. intros _. apply kp_global. apply kp_enter_top.
  Qed.

  (** One step. *)
  Lemma sound_eval s s' t i tk : quiet E t i tk s s' -> okq s -> sound s ->
    (exists y, s_insts s !! 0%nat = Some y /\ i_status y = FActive) -> sound s'.
  Proof.
    intros Hq Ho H (y & Hy & Ha) y' Hy' Hd. destruct (Hq Ho) as (_ & _ & _ & I1 & _). destruct (I1 0%nat y Hy) as (y1 & Hy1 & _ & S).
    rewrite Hy' in Hy1. injection Hy1 as <-. destruct S as (_ & Sh & Ss & Sd & _).
    assert (Hd' : d_eh (i_def y) = None) by (simpl in Hd; by rewrite <- Sd).
    destruct (H y Hy Hd') as [H1 H2]. simpl in *. rewrite Sh, Ss, Ha. split; [|done]. intros Hh. rewrite Ha in H1. by destruct (H1 Hh).
  Qed.
  Lemma sound_exec t s x : fresh s -> s_tis s !! t = Some x -> sound s ->
    (exists y, s_insts s !! 0%nat = Some y /\ i_status y = FActive) -> sound (exec_task E t s).2.
  Proof.
    intros F Hx H Ha.
    assert (Hti : ti_is s t (ti_inst x) (ti_task x)) by (by exists x).
    assert (forall s1 x1, s_tis s1 !! t = Some x1 -> sound s1 -> kp (exec_recover E t "")) as _ by (intros; unfold exec_recover; go; destruct (i_handling _); [go|]; go; [apply kp_append|apply kp_global_error]).
    assert (Hrec : forall m, kp (exec_recover E t m)).
    { intros m. unfold exec_recover. go. destruct (i_handling a0); [go|]. go; [apply kp_append|apply kp_global_error]. }
    assert (Hbody : sound (exec_body E t s).2).
    { unfold exec_body, bind at 1, get_ti, bind at 1, get. rewrite Hx. unfold ret at 1. case_bool_decide; [done|].
      set (m := if bool_decide (ti_status x = TWaiting) then beh_post E (t_type (ti_task x)) t else beh_eval E (t_type (ti_task x)) t).
      assert (sound (m s).2) as Hm.
      { eapply sound_eval; [|by apply fresh_okq|done|done]. unfold m.
        case_bool_decide; [apply post_quiet|apply eval_quiet]; eauto using fresh_okq. }
      unfold bind. destruct (m s) as [[r| | |] s1]; try done. simpl in Hm. destruct r as [e|[]].
      - by apply kp_task_error_handling.
      - by apply kp_set_task_status.
      - by apply kp_task_done.
      - revert s1 Hm. match goal with |- forall s1, sound s1 -> sound (match track_task t s1 with _ => _ end).2 => change (kp (track_task t ;; schedule_eval t)) end.
        go; [apply kp_track|apply kp_schedule].
      - by apply kp_set_task_status.
      - by apply kp_task_done. }
    unfold exec_task, catch. destruct (exec_body E t s) as [[|m| |] s1]; try done. by apply Hrec.
  Qed.
  Lemma sound_step d uri c s : reach E d uri c s -> sound s -> sound (do_step E s).2.
  Proof.
    intros R H. destruct (do_step_cases E s) as [->|(w & t & q & x & y & Hq & Hx & Hy & Ha & ->)]; [done|].
    eapply sound_exec; [eapply reach_fresh, popped_reach; eauto|exact Hx|exact H|by exists y].
  Qed.
  Lemma sound_first d s : first d s -> sound s.
  Proof.
    intros (y & HI & _ & Hh & Ha & Hd & _) y'. rewrite HI. intros [_ <-]%lookup_singleton_Some Hd'. simpl. rewrite Hh, Ha. done.
  Qed.
  Lemma kp_after ro : kp (after_start E ro).
  Proof.
    unfold after_start. apply kp_bind; [by apply kp_upd_inst|]. intros _. destruct (e_ext E); [|go].
    destruct (_ <=? _); [apply kp_record|go].
  Qed.
  Lemma kp_head ro : kp (run_head E ro).
  Proof. unfold run_head. destruct (ro_detach ro), (ro_retid ro); go. Qed.
  Lemma running_sound d uri s : running E d uri s -> sound s.
  Proof.
    induction 1 as [ins|ro ins _|s H IH|s H IH].
    - unfold started. destruct (started_first E d uri ins) as (s1 & -> & F). revert s1 F.
      intros s1 F%sound_first. revert s1 F. apply kp_bind; [apply kp_enter_top|]. intros; apply kp_ret.
    - destruct (begin_first E ro d uri ins) as (s1 & -> & F). apply sound_first in F. revert s1 F.
      apply kp_bind; [|intros; apply kp_bind; [apply kp_after|intros; apply kp_head]]. apply kp_bind; [apply kp_enter_top|]. intros; apply kp_ret.
    - apply running_reach in H as [c H]. by eapply sound_step.
    - by apply kp_record.
  Qed.
End Keep.
