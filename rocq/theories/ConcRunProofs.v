(** Runs with concurrent task execution. No Go counterpart (proof infrastructure). *)
From Verif Require Export ConcRun ConcProofs Errors Run Values.
Local Open Scope Z_scope.

Section Limit.
  Context (E : env) (ro : run_opts).

  (** As long as the loop has not ended. *)
  Definition within (r0 : crun) (chs : list turn) (r : crun) : Prop :=
    r_over r = false -> r_conc r = conc_run E chs (r_conc r0).
  Lemma crun_snoc chs ch r : crun_run E ro (chs ++ [ch]) r = crun_step E ro ch (crun_run E ro chs r).
  Proof. unfold crun_run. by rewrite fold_left_app. Qed.
  Lemma conc_snoc chs ch c : conc_run E (chs ++ [ch]) c = conc_step E ch (conc_run E chs c).
  Proof. unfold conc_run. by rewrite fold_left_app. Qed.
  Lemma loop_round_open r : r_over (loop_round E ro r) = false -> r_over r = false /\ r_conc (loop_round E ro r) = take_item (r_conc r).
  Proof.
    destruct r as [c n b]. unfold loop_round. cbn [r_conc r_count r_over]. destruct b; [done|]. unfold take_item.
    destruct (s_insts (c_st c) !! 0%nat) as [y|]; [|done]. destruct (bool_decide _); [|done].
    destruct (s_queue (c_st c)) as [|[w t] q]; [done|]. destruct (_ <? _); done.
  Qed.
  Lemma unlimited r0 chs : r_over (crun_run E ro chs r0) = false -> r_conc (crun_run E ro chs r0) = conc_run E chs (r_conc r0).
  Proof.
    induction chs as [|ch chs IH] using rev_ind; [done|]. rewrite crun_snoc, conc_snoc. destruct ch as [|k]; cbn [crun_step conc_step].
    - intros H. apply loop_round_open in H as [H ->]. by rewrite IH.
    - cbn [r_over r_conc]. intros H. by rewrite IH.
  Qed.

  (** The count of the loop. *)
  Definition counted (r : crun) : Prop :=
    r_count r = Z.of_nat (length (c_taken (r_conc r))) /\ length (c_threads (r_conc r)) = length (c_taken (r_conc r)) /\ r_count r <= ro_max ro + 1.
  Lemma counted_step ch r : counted r -> counted (crun_step E ro ch r).
  Proof.
    destruct r as [c n b]. unfold counted. cbn [r_conc r_count]. intros (H1 & H2 & H3). destruct ch as [|k]; cbn [crun_step].
    - unfold loop_round. cbn [r_conc r_count r_over]. destruct b; [done|]. unfold take_item. destruct (s_insts (c_st c) !! 0%nat) as [y|]; [|done].
      destruct (bool_decide _); [|done]. destruct (s_queue (c_st c)) as [|[w t] q]; [done|]. destruct (Z.ltb_spec (ro_max ro) n); [done|].
      cbn. rewrite !app_length. cbn. lia.
    - cbn. unfold advance. destruct (c_threads c !! k) as [th|]; [|done]. destruct (piece E th (c_st c)) as [o s']. cbn. by rewrite insert_length.
  Qed.
  Lemma counted_run d uri ins chs : 0 <= ro_max ro -> counted (crun_run E ro chs (crun_start E ro d uri ins)).
  Proof.
    intros Hm. induction chs as [|ch chs IH] using rev_ind; [repeat split; cbn; lia|]. rewrite crun_snoc. by apply counted_step.
  Qed.
  Lemma at_most d uri ins chs : 0 <= ro_max ro ->
    (length (c_threads (r_conc (crun_run E ro chs (crun_start E ro d uri ins)))) <= Z.to_nat (ro_max ro) + 1)%nat.
  Proof. intros Hm. destruct (counted_run d uri ins chs Hm) as (H1 & H2 & H3). lia. Qed.
End Limit.

(** ** The end of a run is told once *)
Definition undone (e : event) : Prop := e <> EvHandlerDone.
Lemma around_undone e : around_ev e -> undone e.
Proof. intros [H|(? & ? & ->)]; [|done]. intros ->. done. Qed.

Section Done.
  Local Set Default Proof Using "Type*".
  Context (E : env) (Hc : e_conc E = true).
  Notation R := (logs undone).
  Notation op := (op R).
  Let O := ops_logs undone around_undone.

  Lemma undone_leaves t i tk : leaves E t i tk R.
  Proof.
    constructor; constructor.
    - apply logs_refl.
    - apply logs_trans.
    - intros s _. by exists [].
    - intros e s _ He. apply logs_log. by destruct e.
    - intros m s _ _ _. by eapply logs_one.
    - intros f s _ _ _. by exists [].
    - intros v s _ _. by eapply logs_one.
    - intros d e s _. unfold reply, bind, get_inst, bind, get. destruct (s_insts s !! i) as [y|]; [|apply logs_refl].
      unfold ret at 1. destruct (i_handler y); [|apply logs_refl]. by eapply (logs_one _ (EvResult d e)).
    - intros d e s _. by eapply (logs_one _ (EvReturn i d e)).
    - intros u ins s [H Ho] _. destruct (quiet_sub_own E t i tk u ins s Ho H) as (Q & _ & I).
      split; [|split; [by eapply ti_is_quiet|by destruct (Q Ho)]]. by apply (lg_start_subflow E undone around_undone).
    - intros n v s _ _ _. by eapply logs_one.
    - intros ins it s x _ _ _ _. by eapply logs_one.
    - intros e s _. by eapply logs_one.
    - intros e s _ He. eapply logs_one; [done|]. by destruct e.
    - intros k w s _. by exists [].
    - intros s x z _ _ _ _. by eapply (logs_one _ (EvTaskUpd (ti_inst x) (t_id (ti_task x)) z)).
  Qed.
  Lemma undone_exec_first t s : okq s -> R s (exec_first E t s).2.
  Proof.
    intros Ho. unfold exec_first. unfold bind at 1, get_ti, bind at 1, get. destruct (s_tis s !! t) as [x|] eqn:Hx; [|apply logs_refl].
    unfold ret at 1. cbv zeta. destruct (bool_decide _); [apply logs_refl|].
    set (m := if bool_decide _ then _ else _).
    assert (Hm : R s (m s).2).
    { assert (Hp : ti_is s t (ti_inst x) (ti_task x) /\ okq s) by (split; [by exists x|done]).
      subst m. destruct (bool_decide _).
      - by apply (rq_beh_post E t (ti_inst x) (ti_task x) R (undone_leaves t _ _)).
      - by apply (rq_beh_eval E t (ti_inst x) (ti_task x) R (undone_leaves t _ _)). }
    clearbody m. unfold bind at 1. destruct (m s) as [[r| | |] s1]; cbn [snd] in *; [|done..]. eapply logs_trans; [done|].
    assert (H : op (match r with
      | inl e => handle_task_error E t e ;; ret ThEnd
      | inr EvalDone | inr EvalSkip => ret (ThDone t)
      | inr EvalWait => set_task_status t TWaiting ;; ret ThEnd
      | inr EvalFail => set_task_status t TFailed ;; ret ThEnd
      | inr EvalRepeat => track_task t ;; schedule_eval t ;; ret ThEnd
      end)).
    { destruct r as [e|[]]; repeat first [apply (op_ret _ O)|apply (op_handle_error E _ O)|apply (op_set_task_status _ O)|apply (op_track _ O)|apply (op_schedule _ O)|apply (op_bind _ O); [|intros ?]]. }
    apply H.
  Qed.
  Lemma undone_done_first t : op (done_first E t).
  Proof.
    unfold done_first. apply (op_bind _ O); [apply (op_get_ti _ O)|]. intros x. cbv zeta. apply (op_bind _ O).
    { destruct (bool_decide _); repeat first [apply (op_ret _ O)|apply (op_beh_skip E _ O)|apply (op_beh_done E _ O)|apply (op_add_cov E _ O)|apply (op_bind _ O); [|intros ?]]. }
    intros [e|[nt es]].
    - repeat first [apply (op_ret _ O)|apply (op_get_inst _ O)|apply (op_append E _ O)|apply (op_global E _ O); intros; apply (op_enter_top E _ O)|apply (op_bind _ O); [|intros ?]].
    - apply (op_bind _ O); [destruct nt; [apply (op_flow_done _ O)|apply (op_ret _ O)]|]. intros fd. apply (op_bind _ O); [apply (op_get_inst _ O)|]. intros y.
      destruct (_ || _); [|apply (op_ret _ O)]. apply (op_bind _ O); [apply (op_complete E _ O)|]. intros. apply (op_ret _ O).
  Qed.
  Lemma undone_piece th s : okq s -> R s (piece E th s).2.
  Proof.
    intros Ho.
    assert (Hrun : forall t (m : M thread) s, R s (m s).2 -> R s (catch m (fun msg => bind (exec_recover E t msg) (fun _ => ret ThEnd)) s).2).
    { intros t m s1 Hm. unfold catch. destruct (m s1) as [[a|e| |] s2]; try done. cbn [snd] in *. eapply logs_trans; [done|].
      apply (op_bind _ O); [apply (op_recover E _ O)|]. intros. apply (op_ret _ O). }
    destruct th as [w t|t|t es|t| | |]; cbn [piece]; [..|apply logs_refl|apply logs_refl|apply logs_refl].
    - unfold bind at 1, get_ti, bind at 1, get. destruct (s_tis s !! t) as [x|]; [|apply logs_refl]. unfold ret at 1, bind at 1, log_ev, modify.
      eapply logs_trans; [by apply (logs_log _ (EvQDel w (ti_inst x) (t_id (ti_task x))))|]. apply Hrun. by apply undone_exec_first.
    - apply Hrun. apply (op_bind _ O); [apply undone_done_first|]. intros. apply (op_ret _ O).
    - apply Hrun. apply (op_bind _ O); [apply (op_get_ti _ O)|]. intros x. apply (op_bind _ O); [apply (op_enter_top E _ O)|]. intros. apply (op_ret _ O).
    - apply Hrun. apply (op_bind _ O); [apply (op_get_ti _ O)|]. intros x. apply (op_bind _ O); [apply (op_release _ O)|]. intros. apply (op_ret _ O).
  Qed.

  (** The parts of the action around the loop. *)
  Definition both {A} (m : M A) : Prop := forall s, okq s -> R s (m s).2 /\ okq (m s).2.
  Lemma both_ret {A} (a : A) : both (ret a).
  Proof. intros s H. split; [apply logs_refl|done]. Qed.
  Lemma both_bind {A B} (m : M A) (k : A -> M B) : both m -> (forall a, both (k a)) -> both (bind m k).
  Proof.
    intros H1 H2 s Ho. destruct (H1 s Ho) as [A1 A2]. unfold bind. destruct (m s) as [[a| | |] s1]; try done. destruct (H2 a s1 A2) as [B1 B2].
    split; [by eapply logs_trans|done].
  Qed.
  Lemma both_log e : undone e -> both (log_ev e).
  Proof. intros He s Ho. split; [by apply logs_log|done]. Qed.
  Lemma both_get_inst i : both (get_inst i).
  Proof. intros s Ho. unfold get_inst, bind, get. destruct (s_insts s !! i); (split; [apply logs_refl|done]). Qed.
  Lemma both_upd_inst i f : both (upd_inst i f).
  Proof. intros s Ho. split; [by exists []|by apply okq_inst]. Qed.
  Lemma both_set tr i m : both (set_attrs tr i m).
  Proof.
    intros s Ho. unfold set_attrs, bind, get_inst, bind, get. destruct (s_insts s !! i); [|split; [apply logs_refl|done]].
    split; [by eapply (logs_one _ (EvSet i m tr))|]. by apply (okq_inst i (fun x => set_i_attrs (m ∪ i_attrs x) x)).
  Qed.
  Lemma both_return_data i : both (get_return_data i).
  Proof.
    intros s Ho. destruct (s_insts s !! i) as [y|] eqn:Hy.
    - rewrite (get_return_data_eq _ _ _ Hy). split; [by exists []|by apply okq_inst].
    - unfold get_return_data, bind, get_inst, bind, get. rewrite Hy. split; [apply logs_refl|done].
  Qed.
  Lemma both_flow_asserts id ty b k l f : both (flow_asserts E id ty b k l f).
  Proof.
    revert k f. induction l as [|a l IH]; intros k f; cbn [flow_asserts]; [apply both_ret|].
    destruct (negb _); [apply both_bind; [by apply both_log|intros; apply IH]|]. destruct (as_empty a); [apply both_bind; [by apply both_log|intros; apply IH]|].
    apply both_bind.
    - unfold ext_flow. apply both_bind; [intros s Ho; split; [by exists []|done]|]. intros n. apply both_bind; [apply both_get_inst|]. intros. apply both_ret.
    - intros [v|e|e]; [apply both_bind; [by apply both_log|intros; apply IH]..|]. intros s Ho. split; [apply logs_refl|done].
  Qed.
  Lemma both_asserts ty : both (apply_flow_asserts E ty).
  Proof.
    unfold apply_flow_asserts. apply both_bind; [apply both_get_inst|]. intros x. cbv zeta. destruct (task_icpt _ _) as [c|]; [|apply both_ret].
    apply both_bind; [by apply both_log|]. intros _. apply both_flow_asserts.
  Qed.
  Lemma both_finish ro k : both (run_finish E ro k).
  Proof.
    assert (Hs : both flow_state) by (unfold flow_state; apply both_bind; [apply both_return_data|intros; apply both_ret]).
    unfold run_finish. apply both_bind; [apply both_get_inst|]. intros x. destruct (_ && _); [by apply both_log|]. apply both_bind.
    - destruct (_ =? _).
      + apply both_bind; [apply both_return_data|]. intros r. apply both_bind; [destruct (r.1); [apply both_set|apply both_ret]|]. intros _.
        apply both_bind; [apply both_asserts|]. intros _. by apply both_log.
      + destruct (_ =? _); [|apply both_ret]. apply both_bind; [apply both_asserts|]. intros b.
        apply both_bind; [destruct b; [by apply both_log|apply both_ret]|]. intros _. apply both_bind; [apply both_get_inst|]. intros. by apply both_log.
    - intros _. destruct (e_ext E); [|apply both_ret]. apply both_bind; [done|]. intros. by apply both_log.
  Qed.
  Lemma both_start ins : both (start E ins).
  Proof.
    intros s Ho. split; [by apply (lg_start_instance E undone around_undone)|]. eapply r_okq.
    by apply (zr_start_instance E Hc (fun _ => False)).
  Qed.
  Lemma both_record : both (record_state E).
  Proof.
    intros s Ho. split; [apply (op_record E _ O)|]. eapply z_okq. by apply (zp_record E rel0 (fun s s' (H : rel0 s s') => H) rel0_trans z_okq z_host (fun _ => False)).
  Qed.
  Lemma both_begin ro ins : ro_detach ro = false -> both (run_prepare E ro ins ;; run_head E ro).
  Proof.
    intros Hd. apply both_bind.
    - unfold run_prepare. apply both_bind.
      { destruct (e_ext E); [|apply both_ret]. apply both_bind; [unfold flow_state; apply both_bind; [apply both_return_data|intros; apply both_ret]|]. intros _. by apply both_log. }
      intros _. apply both_bind; [destruct (String.eqb _ _); [apply both_ret|apply both_set]|]. intros _. apply both_bind; [apply both_start|]. intros _.
      apply both_bind; [apply both_upd_inst|]. intros _. destruct (e_ext E); [|apply both_ret]. destruct (_ <=? _); [apply both_record|by apply both_log].
    - intros _. unfold run_head. rewrite Hd. apply both_bind; [apply both_ret|]. intros _. destruct (ro_retid ro); [by apply both_log|apply both_ret].
  Qed.

  (** The invariant. *)
  Lemma undone_signals s s' : R s s' -> done_signals s' = done_signals s.
  Proof.
    intros (l & Hl & F). unfold done_signals, trace. rewrite Hl, rev_app_distr, omap_app.
    assert (Hn : omap (fun e => match e with EvHandlerDone => Some tt | _ => None end) (rev l) = []).
    { clear Hl. induction F as [|e l He _ IH]; [done|]. cbn. rewrite omap_app, IH. by destruct e. }
    by rewrite Hn, app_nil_r.
  Qed.
  Definition dinv (r : crun) : Prop := okq (c_st (r_conc r)) /\ done_signals (c_st (r_conc r)) = if r_over r then [tt] else [].
  Lemma ends_done ro m s : ro_detach ro = false -> both m -> okq s -> done_signals s = [] -> (match (m s).1 with Ok _ | Panic _ => True | _ => False end) ->
    okq (run_over ro m s).2 /\ done_signals (run_over ro m s).2 = [tt].
  Proof.
    intros Hd Hm Ho Hs Ht. destruct (Hm s Ho) as [A1 A2]. unfold run_over, finally, bind, catch. rewrite Hd. apply undone_signals in A1. rewrite Hs in A1.
    unfold done_signals, trace in *. destruct (m s) as [[[]| | |] s1]; try done; cbn in *; (split; [done|]; by rewrite omap_app, A1).
  Qed.
  Definition ends {A} (m : M A) : Prop := forall s, match (m s).1 with Ok _ | Panic _ => True | _ => False end.
  Lemma ends_bind {A B} (m : M A) (k : A -> M B) : ends m -> (forall a, ends (k a)) -> ends (bind m k).
  Proof. intros H1 H2 s. specialize (H1 s). unfold bind. destruct (m s) as [[a| | |] s1]; try done. apply H2. Qed.
  Lemma ends_get_inst i : ends (get_inst i).
  Proof. intros s. unfold get_inst, bind, get. by destruct (s_insts s !! i). Qed.
  Lemma ends_set tr i m : ends (set_attrs tr i m).
  Proof. intros s. unfold set_attrs, bind, get_inst, bind, get. by destruct (s_insts s !! i). Qed.
  Lemma ends_return_data i : ends (get_return_data i).
  Proof.
    intros s. destruct (s_insts s !! i) as [y|] eqn:Hy; [by rewrite (get_return_data_eq _ _ _ Hy)|].
    unfold get_return_data, bind, get_inst, bind, get. by rewrite Hy.
  Qed.
  Lemma ends_flow_asserts id ty b k l f : ends (flow_asserts E id ty b k l f).
  Proof.
    revert k f. induction l as [|a l IH]; intros k f; cbn [flow_asserts]; [done|].
    destruct (negb _); [apply ends_bind; [done|intros; apply IH]|]. destruct (as_empty a); [apply ends_bind; [done|intros; apply IH]|].
    apply ends_bind.
    - unfold ext_flow. apply ends_bind; [done|]. intros n. apply ends_bind; [apply ends_get_inst|done].
    - intros [v|e|e]; [apply ends_bind; [done|intros; apply IH]..|]. done.
  Qed.
  Lemma ends_asserts ty : ends (apply_flow_asserts E ty).
  Proof.
    unfold apply_flow_asserts. apply ends_bind; [apply ends_get_inst|]. intros x. cbv zeta. destruct (task_icpt _ _) as [c|]; [|done].
    apply ends_bind; [done|]. intros _. apply ends_flow_asserts.
  Qed.
  Lemma ends_finish ro k : ends (run_finish E ro k).
  Proof.
    assert (Hs : ends flow_state) by (unfold flow_state; apply ends_bind; [apply ends_return_data|done]).
    unfold run_finish. apply ends_bind; [apply ends_get_inst|]. intros x. destruct (_ && _); [done|]. apply ends_bind.
    - destruct (_ =? _).
      + apply ends_bind; [apply ends_return_data|]. intros r. apply ends_bind; [destruct (r.1); [apply ends_set|done]|]. intros _.
        apply ends_bind; [apply ends_asserts|done].
      + destruct (_ =? _); [|done]. apply ends_bind; [apply ends_asserts|]. intros b.
        apply ends_bind; [by destruct b|]. intros _. apply ends_bind; [apply ends_get_inst|done].
    - intros _. destruct (e_ext E); [|done]. apply ends_bind; [done|]. done.
  Qed.

  Lemma dinv_step ro ch r : ro_detach ro = false -> dinv r -> dinv (crun_step E ro ch r).
  Proof.
    intros Hd [Ho Hs]. destruct r as [c n b]. cbn [r_conc r_over] in *. destruct ch as [|k]; cbn [crun_step].
    - unfold loop_round. cbn [r_conc r_count r_over]. destruct b; [by split|]. destruct (s_insts (c_st c) !! 0%nat) as [y|] eqn:Hy; [|by split].
      destruct (bool_decide _) eqn:Ha.
      + destruct (s_queue (c_st c)) as [|[w t] q] eqn:Hq; [by split|]. destruct (_ <? _).
        * apply ends_done; try done. by apply both_log.
        * unfold dinv, take_item. cbn [r_conc r_over]. rewrite Hy, Ha, Hq. by split.
      + apply ends_done; try done; [apply both_finish|apply ends_finish].
    - unfold dinv. cbn [r_conc r_over]. unfold advance. destruct (c_threads c !! k) as [th|]; [|by split].
      pose proof (undone_piece th _ Ho) as H1. pose proof (zr_piece E Hc th _ Ho (fun u (F : False) => False_ind _ F)) as H2.
      destruct (piece E th (c_st c)) as [o s']. cbn [snd c_st] in *. split; [by eapply r_okq|]. by rewrite (undone_signals _ _ H1).
  Qed.
  Lemma told_once ro d uri ins chs : ro_detach ro = false ->
    let r := crun_run E ro chs (crun_start E ro d uri ins) in done_signals (c_st (r_conc r)) = if r_over r then [tt] else [].
  Proof.
    intros Hd. cbv zeta. assert (H : dinv (crun_run E ro chs (crun_start E ro d uri ins))); [|apply H].
    induction chs as [|ch chs IH] using rev_ind; [|rewrite crun_snoc; by apply dinv_step].
    assert (O0 : okq (init_st d uri)).
    { split; [done|]. intros j Hj. cbn in *. rewrite lookup_singleton_ne; [done|lia]. }
    destruct (both_begin ro ins Hd _ O0) as [H1 H2]. split; [exact H2|]. cbn. by rewrite (undone_signals _ _ H1).
  Qed.
End Done.

(** ** How a run ends *)
Section End.
  Local Set Default Proof Using "Type*".
  Context (E : env) (ro : run_opts) (Hd : ro_detach ro = false) (Hm : 0 <= ro_max ro) (HI : e_icpt E = None).

  Lemma first_end r0 chs : r_over r0 = false -> r_over (crun_run E ro chs r0) = true ->
    exists pre post, chs = pre ++ Loop :: post /\ r_over (crun_run E ro pre r0) = false /\ r_over (loop_round E ro (crun_run E ro pre r0)) = true.
  Proof.
    intros H0. induction chs as [|ch chs IH] using rev_ind; [intros H; cbn in H; congruence|]. rewrite crun_snoc. destruct (r_over (crun_run E ro chs r0)) eqn:Ho.
    - intros _. destruct (IH eq_refl) as (pre & post & -> & H1 & H2). exists pre, (post ++ [ch]). by rewrite <- app_assoc.
    - destruct ch as [|k]; cbn [crun_step]; [|by rewrite Ho]. intros H. by exists chs, [].
  Qed.
  Lemma finish_ok k s y : s_insts s !! 0%nat = Some y -> (run_finish E ro k s).1 = Ok tt.
  Proof.
    intros Hy. assert (T : forall ty m, is_Some (s_insts m !! 0%nat) -> apply_flow_asserts E ty m = (Ok false, m)).
    { intros ty m [z Hz]. unfold apply_flow_asserts, task_icpt, bind, get_inst, bind, get. by rewrite HI, Hz. }
    assert (F : forall m, is_Some (s_insts m !! 0%nat) -> ((if e_ext E then flow_state ;; log_ev EvRecDone else ret tt) m).1 = Ok tt).
    { intros m [z Hz]. destruct (e_ext E); [|done]. unfold flow_state. unfold bind at 1 2. by rewrite (get_return_data_eq _ _ _ Hz). }
    unfold run_finish. rewrite (eval_get_inst _ _ _ _ Hy). destruct (_ && _); [done|]. destruct (_ =? _).
    - unfold bind at 1 2. rewrite (get_return_data_eq _ _ _ Hy). cbn [fst snd]. set (s1 := p_inst 0 cached s).
      assert (Hy1 : s_insts s1 !! 0%nat = Some (cached y)) by (unfold s1; by rewrite p_inst_at, Hy).
      assert (exists s2, (match i_rdata (cached y) with Some d => set_values E 0 d | None => ret tt end) s1 = (Ok tt, s2) /\ is_Some (s_insts s2 !! 0%nat)) as (s2 & H2 & I2).
      { destruct (i_rdata (cached y)) as [v|]; [|eauto]. unfold set_values. rewrite (set_attrs_eq _ _ _ _ _ Hy1). eexists. split; [done|].
        rewrite p_set_at, Hy1. by eexists. }
      unfold bind at 1. rewrite H2. unfold bind at 1. rewrite T by done. unfold log_ev at 1, modify at 1. by apply F.
    - destruct (_ =? _); [|by apply F]. unfold bind at 1 2. rewrite T by eauto. unfold bind at 1, ret at 1. rewrite (eval_get_inst _ _ _ _ Hy). unfold log_ev at 1, modify at 1. apply F. eauto.
  Qed.
  Lemma delivered_done s : delivered (set_s_log (EvHandlerDone :: s_log s) s) = delivered s.
  Proof. unfold delivered, trace. cbn. by rewrite omap_app, app_nil_r. Qed.

  Lemma run_end d uri ins chs : r_over (crun_run E ro chs (crun_start E ro d uri ins)) = true ->
    exists pre post y res, chs = pre ++ Loop :: post /\
      let c := r_conc (crun_run E ro pre (crun_start E ro d uri ins)) in let c' := r_conc (crun_run E ro (pre ++ [Loop]) (crun_start E ro d uri ins)) in
      c = conc_run E pre (r_conc (crun_start E ro d uri ins)) /\ s_insts (c_st c) !! 0%nat = Some y /\ c_threads c' = c_threads c /\
      delivered (c_st c') = delivered (c_st c) ++ res /\
      (i_status y = FActive /\ length (c_threads c) = (Z.to_nat (ro_max ro) + 1)%nat /\ (exists p, s_queue (c_st c) = p :: s_queue (c_st c')) /\ res = [(None, Some (limit_err E ro))] \/
       i_status y = FCompleted /\ res = [(result_data y, i_rerr y)] \/ i_status y = FFailed /\ res = [(None, i_rerr y)] \/
       i_status y <> FActive /\ i_status y <> FCompleted /\ i_status y <> FFailed /\ res = []).
  Proof.
    intros Ho. destruct (first_end _ _ (eq_refl : r_over (crun_start E ro d uri ins) = false) Ho) as (pre & post & -> & H1 & H2). exists pre, post.
    pose proof (unlimited E ro _ _ H1) as Hu. destruct (counted_run E ro d uri ins pre Hm) as (C1 & C2 & C3). rewrite crun_snoc. cbn [crun_step].
    destruct (crun_run E ro pre (crun_start E ro d uri ins)) as [c n b]. cbn [r_conc r_count r_over] in *. subst b. revert H2. unfold loop_round. cbn [r_conc r_count r_over].
    destruct (s_insts (c_st c) !! 0%nat) as [y|] eqn:Hy; [|done]. exists y. destruct (bool_decide_reflect (i_status y = FActive)) as [Ha|Ha].
    - destruct (s_queue (c_st c)) as [|p q] eqn:Hq; [done|]. destruct (Z.ltb_spec (ro_max ro) n); [|done]. exists [(None, Some (limit_err E ro))].
      split; [done|]. cbv zeta. split; [done|]. split; [done|]. split; [done|].
      assert (He : run_over ro (log_ev (EvResult None (Some (limit_err E ro)))) (set_s_queue q (c_st c)) =
        (Ok tt, set_s_log (EvHandlerDone :: EvResult None (Some (limit_err E ro)) :: s_log (c_st c)) (set_s_queue q (c_st c)))).
      { unfold run_over. by rewrite Hd. }
      cbn [c_st r_conc]. rewrite He. split; [unfold delivered, trace; cbn; by rewrite !omap_app, app_nil_r|]. left. split; [done|]. split; [lia|]. split; [by exists p|done].
    - pose proof (run_finish_results E ro (ro_max ro + 1) (c_st c) y Hy) as Hr. pose proof (finish_ok (ro_max ro + 1) (c_st c) y Hy) as Hf.
      destruct (run_finish E ro (ro_max ro + 1) (c_st c)) as [o s'] eqn:Hs. cbn [fst] in Hf. subst o. destruct (Hr tt s' Hs) as (res & D1 & D2 & _). exists res.
      split; [done|]. cbv zeta. split; [done|]. split; [done|]. split; [done|].
      assert (He : run_over ro (run_finish E ro (ro_max ro + 1)) (c_st c) = (Ok tt, set_s_log (EvHandlerDone :: s_log s') s')).
      { unfold run_over, finally, bind, catch. by rewrite Hd, Hs. }
      cbn [c_st r_conc]. rewrite He. cbn [snd]. rewrite delivered_done. split; [done|]. right. unfold last_results in D2.
      rewrite (bool_decide_false (ro_max ro + 1 = ro_max ro)) in D2 by lia. cbn [andb] in D2.
      destruct (bool_decide_reflect (i_status y = FCompleted)); [by left|]. right. destruct (bool_decide_reflect (i_status y = FFailed)); [|by right].
      left. split; [done|]. destruct D2 as [D2|[_ (tc & ? & Hx & _)]]; [done|]. unfold task_icpt in Hx. by rewrite HI in Hx.
  Qed.
End End.
