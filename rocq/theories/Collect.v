(** How the outputs of a loop are collected. No Go counterpart (proofs). *)
From Verif Require Export Isolation.
Local Open Scope Z_scope.

Section Collect.
  Local Set Default Proof Using "Type*".
  Context (E : env) (t i : nat) (tk : task) (NI : e_icpt E = None) (HA : t_act tk <> None) (AC : accumulates tk = true)
    (NS : ~ scoped E (all_key (t_id tk))).
  Notation k := (all_key (t_id tk)).
  Notation R := (kept i k).
  Notation P := (fun s => ti_is s t i tk /\ okq s).
  Definition at_work (s : st) : Prop := P s /\ is_Some (s_insts s !! i).

  Lemma mapped_not_all m : eval_names (t_id tk) m -> m !! k = None.
  Proof.
    intros Hm. destruct (m !! k) as [v|] eqn:H; [|done]. exfalso.
    destruct (Hm k v H) as [Hk|[Hk|[n Hk]]]; [discriminate Hk|discriminate Hk|]. by apply (all_out_key (t_id tk) n).
  Qed.
  Lemma c_leaves0 : leaves0 E t i tk R.
  Proof.
    constructor.
    - apply kept_refl.
    - apply kept_trans.
    - intros s _. by apply kept_same.
    - intros e s _ _. by apply kept_same.
    - intros m s _ _ Hm. apply kept_set. left. by apply mapped_not_all.
    - intros f s _ _ _. by apply kept_same.
  Qed.
  Lemma c_leaves1 : leaves1 E t i tk R.
  Proof.
    constructor.
    - intros d e s _. unfold reply, bind, get_inst, bind, get. destruct (s_insts s !! i) as [y|]; [|apply kept_refl].
      unfold ret at 1. destruct (i_handler y); [|apply kept_refl].
      eapply (kept_trans _ _ _ (p_inst i (set_i_rdata d) s)); [apply kept_inst; by left|by apply kept_same].
    - intros d e s _. eapply (kept_trans _ _ _ (p_inst i (fun x => set_i_force true (set_i_rdata d (set_i_rerr e x))) s)); [apply kept_inst; by left|by apply kept_same].
    - intros u ins s [H Ho] _. destruct (quiet_sub_own E t i tk u ins s Ho H) as (Q & _ & I).
      split; [|split; [by eapply ti_is_quiet|by destruct (Q Ho)]]. intros [y Hy]. unfold attr_of. rewrite I; [rewrite Hy; eauto|].
      destruct Ho as [_ O2]. destruct (decide (s_sfctr s < i)%nat) as [Hlt|]; [by rewrite (O2 i Hlt) in Hy|lia].
    - intros n v s _ _ Hn. apply kept_set. left. apply lookup_singleton_None. by intros ->.
  Qed.
  Lemma c_leaves2 : leaves2 t i tk R.
  Proof. constructor; intros; by apply kept_same. Qed.
  Lemma c_leaves3 : leaves3 t i tk R.
  Proof. constructor; intros; by apply kept_same. Qed.
  Local Notation L0 := c_leaves0. Local Notation L1 := c_leaves1. Local Notation L2 := c_leaves2. Local Notation L3 := c_leaves3.

  (** The activity is done and its outputs are collected, or nothing is. *)
  Definition hm (m : M (err + bool)) : Prop := forall s, at_work s -> at_work (m s).2 /\
    match m s with
    | (Ok (inr true), s') => exists s2, R s s2 /\ at_work s2 /\ fin E t s2 s'
    | (_, s') => R s s'
    end.

  Lemma rq_work {A} (m : M A) s : rq t i tk R m -> at_work s -> at_work (m s).2 /\ R s (m s).2.
  Proof. intros Hm [H Hi]. destruct (Hm s H) as [H1 H2]. split; [|done]. split; [done|]. by apply H1. Qed.
  Lemma hm_from (o : out (err + bool)) s s1 s' : R s s1 ->
    match (o, s') with
    | (Ok (inr true), s') => exists s2, R s1 s2 /\ at_work s2 /\ fin E t s2 s'
    | (_, s') => R s1 s'
    end -> match (o, s') with
    | (Ok (inr true), s') => exists s2, R s s2 /\ at_work s2 /\ fin E t s2 s'
    | (_, s') => R s s'
    end.
  Proof.
    intros H. destruct o as [[e|[]]| | |]; try (intros H'; eapply kept_trans; by eauto).
    intros (s2 & H2 & F). exists s2. split; [by eapply kept_trans|done].
  Qed.
  Lemma hm_bind {A} (m : M A) f : rq t i tk R m -> (forall a, hm (f a)) -> hm (bind m f).
  Proof.
    intros Hm Hf s W. destruct (rq_work m s Hm W) as [W1 R1]. unfold bind. destruct (m s) as [[a| | |] s1]; cbn [snd] in *; try done.
    destruct (Hf a s1 W1) as [W2 H2]. split; [done|]. destruct (f a s1) as [o s2]. by eapply hm_from.
  Qed.
  Lemma hm_none (r : err + bool) : r <> inr true -> hm (ret r).
  Proof. intros Hr s W. split; [done|]. cbn. destruct r as [e|[]]; [apply kept_refl|done|apply kept_refl]. Qed.
  Lemma hm_panic msg : hm (panic msg).
  Proof. intros s W. split; [done|]. apply kept_refl. Qed.
  Lemma hm_fuel : hm out_of_fuel.
  Proof. intros s W. split; [done|]. apply kept_refl. Qed.
  Lemma hm_get_ti f : (forall x, ti_inst x = i -> ti_task x = tk -> hm (f x)) -> hm (bind (get_ti t) f).
  Proof.
    intros Hf s W. assert (W' := W). destruct W' as [[(x & Hx & Hi & Ht) _] _]. rewrite (eval_get_ti t _ _ _ Hx). by apply Hf.
  Qed.
  Lemma hm_guard m f : rq t i tk R m -> hm f -> hm (guard_err m f).
  Proof. intros Hm Hf. apply hm_bind; [done|]. intros [e|]; [by apply hm_none|done]. Qed.
  Lemma hm_recover m : hm m -> hm (recover_eval t m).
  Proof.
    intros Hm s W. destruct (Hm s W) as [W1 H1]. unfold recover_eval, catch. destruct (m s) as [[r|e| |] s1]; cbn [snd] in *; try done.
    assert (W' := W1). destruct W' as [[(x & Hx & _) _] _]. rewrite (eval_get_ti t _ _ _ Hx). done.
  Qed.

  Lemma hm_finish : hm (finish_activity E t).
  Proof.
    intros s W. assert (W' := W). destruct W' as [[(x & Hx & Hi & Ht) Ho] [y Hy]].
    set (s2 := set_s_tick (S (s_tick s)) s).
    cut (at_work (finish_activity E t s).2 /\ match (finish_activity E t s).1 with Ok (inr true) => True | _ => R s (finish_activity E t s).2 end).
    { intros [H1 H2]. split; [done|]. destruct (finish_activity E t s) as [[[e|[]]|m| |] s'] eqn:Hf; try done.
      assert (Hy' := Hy). rewrite <- Hi in Hy'.
      destruct (finish_fin E t NI _ _ _ _ _ Hx Hy' ltac:(by rewrite Ht) Hf) as (s3 & [-> | ->] & F).
      - exists s. split; [apply kept_refl|done].
      - exists s2. split; [by apply kept_same|]. done. }
    split.
    { assert (Hy1 := Hy). rewrite <- Hi in Hy1. pose proof (rq_finish E t i tk (quiet E t i tk) (lv0 _ _ _ _ _ (quiet_leaves E t i tk)) (lvA _ _ _ _ _ (quiet_leaves E t i tk)) s (proj1 W)) as [Q HP].
      split; [done|]. destruct (Q Ho) as (_ & _ & _ & I & _). destruct (I i y Hy) as (y' & -> & _). eauto. }
    cut (forall r s', finish_activity E t s = (r, s') -> r = Ok (inr true) \/ R s s').
    { intros H. destruct (finish_activity E t s) as [r s'] eqn:Hf. destruct (H r s' eq_refl) as [-> |Hk]; [done|]. cbn [fst snd]. by destruct r as [[e|[]]| | |]. }
    intros r s'. assert (s_tis s2 !! t = Some x) as Hx2 by done. assert (s_insts s2 !! ti_inst x = Some y) as Hy2 by (by rewrite Hi).
    assert (R s s2) as R2 by by apply kept_same.
    unfold finish_activity. rewrite (eval_get_ti _ _ _ _ Hx). unfold guard_err at 1, bind at 1, ext, bind at 1, tick, bind at 1, get, bind at 1, modify, ret at 1, bind at 1.
    unfold ret at 1. destruct (e_outschema E _ _); [unfold ret; intros [= <- <-]; by right|]. fold s2.
    unfold guard_err at 1. rewrite (eval_icpt E t NI _ _ _ _ Hx2 Hy2). unfold guard_err at 1. rewrite Ht, AC.
    destruct (t_act tk) as [ac|] eqn:Hc; [|done].
    set (m := mapped_outputs (t_id (ti_task x)) (ac_outs ac) (ti_out x)).
    assert (forall s0 y0, s_tis s0 !! t = Some x -> s_insts s0 !! ti_inst x = Some y0 ->
      forall B (f : unit -> M B), bind (apply_output_mapper E t) f s0 = f tt (p_set (e_track E) (ti_inst x) m s0)) as Hmap.
    { intros s0 y0 Hx0 Hy0 B f. assert (apply_output_mapper E t s0 = (Ok tt, p_set (e_track E) (ti_inst x) m s0)) as Hm.
      { unfold apply_output_mapper. rewrite (eval_get_ti _ _ _ _ Hx0), Ht, Hc. unfold set_values, set_attrs. unfold m. rewrite Ht. by rewrite (eval_get_inst _ _ _ _ Hy0). }
      unfold bind. by rewrite Hm. }
    assert (forall s0 y0, s_tis s0 !! t = Some x -> s_insts s0 !! ti_inst x = Some y0 ->
      guard_err (apply_asserts E t 1) (ret (inr true)) s0 = (Ok (inr (A:=err) true), s0)) as Has.
    { intros s0 y0 Hx0 Hy0. unfold guard_err. by rewrite (eval_asserts E t NI _ _ _ _ _ Hx0 Hy0). }
    unfold bind at 1, bind at 1. rewrite (eval_acc E t NI _ _ _ Hx2 Hy2). cbv zeta.
    assert (forall b r s', bind ((if acc_apply tk then apply_output_mapper E t else ret tt) ;; ret None)
           (fun r : option err => match r with Some e => ret (inl e) | None => guard_err (apply_asserts E t 1) (ret (inr true)) end)
           (p_set (e_track E) (ti_inst x) {[ all_key (t_id (ti_task x)) := VArr (b ++ [out_obj x]) ]} s2) = (r, s') -> r = Ok (inr true) \/ R s s') as Hgo.
    { intros b r0 s0. set (s3 := p_set _ _ _ s2). set (v := VArr _) in *.
      assert (s_insts s3 !! ti_inst x = Some (set_i_attrs ({[ all_key (t_id (ti_task x)) := v ]} ∪ i_attrs y) y)) as Hy3 by by apply put_set.
      assert (s_tis s3 !! t = Some x) as Hx3 by done. destruct (acc_apply tk).
      - unfold bind at 1. rewrite (Hmap s3 _ Hx3 Hy3). unfold ret at 1. erewrite (Has (p_set (e_track E) (ti_inst x) m s3)); [|done|by apply put_set].
        intros [= <- _]. by left.
      - unfold bind at 1, bind at 1, ret at 1, ret at 1. erewrite (Has s3); [|done|done]. intros [= <- _]. by left. }
    destruct (i_attrs y !! all_key (t_id (ti_task x))) as [v|].
    - destruct (e_toarr E v) as [b0|]; [|unfold ret; intros [= <- <-]; by right]. intros H. by eapply (Hgo b0).
    - intros H. by eapply (Hgo []).
  Qed.

  Lemma hm_eval_activity : hm (eval_activity E t).
  Proof.
    unfold eval_activity. apply hm_recover. apply hm_get_ti. intros x Hi Ht. rewrite Ht. generalize (t_act tk). intros [ac|]; [|apply hm_panic].
    apply hm_guard.
    - destruct (ac_inmap ac); [|apply (rq_ret _ _ _ _ _ L0)]. apply (rq_bind _ _ _ _ _ L0); [apply (rq_input_mapper _ _ _ _ _ L0)|]. intros. apply (rq_ret _ _ _ _ _ L0).
    - apply hm_bind; [apply (rq_input_icpt _ _ _ _ _ L0)|]. intros [|]; [|apply hm_finish].
      apply hm_guard; [apply (rq_ext _ _ _ _ _ L0)|]. apply hm_bind.
      { unfold has_output_icpt. apply (rq_icpt_id _ _ _ _ _ L0). intros. apply (rq_ret _ _ _ _ _ L0). }
      intros [|].
      + apply hm_bind; [apply (rq_exec_status _ _ _ _ _ L0)|]. intros. apply hm_finish.
      + apply hm_bind; [apply (rq_call_activity _ _ _ _ _ L0 L1 L2)|]. intros [e|[|]]; [by apply hm_none|apply hm_finish|by apply hm_none].
  Qed.
  Lemma hm_again (m : M (err + bool)) f : hm m -> (forall r, r <> inr true -> hm (f r)) -> (forall s, at_work s -> f (inr true) s = (Ok (inr true), s)) -> hm (bind m f).
  Proof.
    intros Hm Hf Ht s W. destruct (Hm s W) as [W1 H1]. unfold bind. destruct (m s) as [[r|e| |] s1]; cbn [snd] in *; try done.
    destruct r as [e|[]].
    - destruct (Hf (inl e) ltac:(done) s1 W1) as [W2 H2]. split; [done|]. destruct (f (inl e) s1) as [o s2]. by eapply hm_from.
    - by rewrite Ht.
    - destruct (Hf (inr false) ltac:(done) s1 W1) as [W2 H2]. split; [done|]. destruct (f (inr false) s1) as [o s2]. by eapply hm_from.
  Qed.
  Lemma work_ti {B} (f : tinst -> M B) s : at_work s -> exists x, s_tis s !! t = Some x /\ ti_task x = tk /\ bind (get_ti t) f s = f x s.
  Proof. intros [[(x & Hx & Hi & Ht) _] _]. exists x. split_and!; [done..|]. by apply eval_get_ti. Qed.
  Lemma hm_retry_loop n r : r <> inr true -> hm (retry_loop E n t r).
  Proof.
    revert r. induction n as [|n IH]; intros r Hr; cbn [retry_loop]; apply hm_get_ti; intros x _ Et; rewrite Et;
      (destruct r as [e|]; [|by apply hm_none]); (destruct (t_retry tk) as [rc|]; [|by apply hm_none]); (destruct (retriable e); [|by apply hm_none]);
      (apply hm_bind; [apply (rq_retry_data _ _ _ _ _ L0 L3)|]); (intros [e'|[c iv]]; [by apply hm_none|]);
      (destruct (0 <? c); [|by apply hm_none]).
    - apply hm_fuel.
    - apply hm_bind; [apply (rq_set_wd _ _ _ _ _ L0 L3)|]. intros _. apply hm_again; [apply hm_eval_activity|apply IH|].
      intros s W. destruct n; cbn [retry_loop]; by destruct (work_ti (fun x => ret (inr (A:=err) true)) s W) as (x1 & _ & _ & ->).
  Qed.
  Lemma hm_eval_retry : hm (eval_retry E t).
  Proof.
    unfold eval_retry. apply hm_again; [apply hm_eval_activity| |].
    - intros r Hr. apply hm_get_ti. intros x _ Et. rewrite Et. destruct r as [e|]; [|by apply hm_none]. destruct (t_retry tk) as [rc|]; [|by apply hm_none].
      destruct (retriable e); [|by apply hm_none]. apply hm_bind; [apply (rq_retry_data _ _ _ _ _ L0 L3)|]. intros [e'|p]; [by apply hm_none|].
      apply hm_bind; [|intros; by apply hm_retry_loop]. unfold retry_bound. apply (rq_get_ti _ _ _ _ _ L0). intros. apply (rq_ret _ _ _ _ _ L0).
    - intros s W. by destruct (work_ti (fun x => ret (inr (A:=err) true)) s W) as (x & _ & _ & ->).
  Qed.

  (** ** The behaviours *)
  Definition collected (s s' : st) : Prop := exists s2 s3, R s s2 /\ at_work s2 /\ fin E t s2 s3 /\ settled t s3 s'.
  Definition hr (m : M (err + eval_result)) (s : st) : Prop :=
    match m s with
    | (Ok r, s') => if succeeded tk r then collected s s' else (t_type tk = TDoWhile -> exists v, r = inr v) -> R s s'
    | _ => True
    end.
  Lemma hr_from m s s1 (f : M (err + eval_result)) : R s s1 -> f s = m s1 -> hr m s1 -> hr f s.
  Proof.
    intros H Hf. unfold hr. rewrite Hf. destruct (m s1) as [[r| | |] s']; try done. destruct (succeeded tk r).
    - intros (s2 & s3 & H2 & H3). exists s2, s3. split; [by eapply kept_trans|done].
    - intros H2 H3. eapply kept_trans; [done|auto].
  Qed.
  Lemma hr_bind {A} (m : M A) f s : rq t i tk R m -> (forall a s', at_work s' -> hr (f a) s') -> at_work s -> hr (bind m f) s.
  Proof.
    intros Hm Hf W. destruct (rq_work m s Hm W) as [W1 R1]. destruct (m s) as [[a| | |] s1] eqn:Hs; cbn [snd] in *; try (unfold hr, bind; by rewrite Hs).
    apply (hr_from (f a) s s1 (bind m f) R1); [unfold bind; by rewrite Hs|auto].
  Qed.
  Lemma hr_none r s : succeeded tk r = false -> hr (ret r) s.
  Proof. intros Hr. unfold hr. cbn. rewrite Hr. intros _. apply kept_refl. Qed.
  Lemma hr_get_ti f s : at_work s -> (forall x, s_tis s !! t = Some x -> ti_task x = tk -> hr (f x) s) -> hr (bind (get_ti t) f) s.
  Proof. intros W Hf. destruct (work_ti f s W) as (x & Hx & Ht & He). eapply hr_from; [apply kept_refl|exact He|auto]. Qed.
  (** The activity, and then the rest. *)
  Lemma hr_retry f s : at_work s ->
    (forall r s', at_work s' -> r <> inr true -> hr (f r) s') ->
    (forall s', at_work s' -> match f (inr true) s' with (Ok r, s2) => (succeeded tk r \/ exists e, t_type tk = TDoWhile /\ r = inl e) /\ settled t s' s2 | _ => True end) ->
    hr (bind (eval_retry E t) f) s.
  Proof.
    intros W Hf Ht. destruct (hm_eval_retry s W) as [W1 H1]. destruct (eval_retry E t s) as [[r|e| |] s1] eqn:Hs; cbn [snd] in *; try (unfold hr, bind; by rewrite Hs).
    assert (bind (eval_retry E t) f s = f r s1) as He by (unfold bind; by rewrite Hs).
    destruct r as [e|[]].
    - by apply (hr_from (f (inl e)) s s1 (bind (eval_retry E t) f) H1); [|apply Hf].
    - destruct H1 as (s2 & K & W2 & F). specialize (Ht s1 W1). unfold hr. rewrite He. destruct (f (inr true) s1) as [[r| | |] s3]; try done. destruct Ht as [Hr Hst].
      destruct Hr as [Hr|(e & Hdw & ->)].
      + destruct (succeeded tk r); [|done]. exists s2, s1. done.
      + cbn [succeeded]. intros H. by destruct (H Hdw).
    - by apply (hr_from (f (inr false)) s s1 (bind (eval_retry E t) f) H1); [|apply Hf].
  Qed.

  Lemma hr_basic s : at_work s -> t_type tk = TBasic -> (forall x, s_tis s !! t = Some x -> ti_status x <> TSkipped) -> hr (basic_eval E t) s.
  Proof.
    intros W Ty Hs. unfold basic_eval. apply hr_get_ti; [done|]. intros x Hx _. case_bool_decide as Hb; [by destruct (Hs x)|].
    apply hr_retry; [done| |].
    - intros [e|[]] s' W' Hr; [by apply hr_none|done|by apply hr_none].
    - intros s' W'. cbn. rewrite Ty. split; [by left|apply settled_refl].
  Qed.
  Lemma hr_end (z : Z) (r : err + eval_result) s : z = TFailed \/ z = TWaiting \/ z = TDone -> t_type tk <> TBasic -> succeeded tk r = false -> at_work s ->
    hr (set_task_status t z ;; ret r) s.
  Proof. intros Hz Hb Hr W. apply hr_bind; [by apply (rq_end _ _ _ _ _ L0 L3)| |done]. intros. by apply hr_none. Qed.
  Lemma hr_iter_step it s : at_work s -> t_type tk = TIterator -> hr (iter_step E t it) s.
  Proof.
    intros W Ty. unfold iter_step. destruct (iter_next it) as [it' o].
    apply hr_bind; [apply (rq_set_wd _ _ _ _ _ L0 L3)| |done]. intros [] s1 W1. destruct o as [[[ky v] ix]|]; [|apply hr_none; unfold succeeded; by rewrite Ty].
    apply hr_bind; [apply (rq_set_wd _ _ _ _ _ L0 L3)| |done]. intros [] s2 W2.
    assert (t_type tk <> TBasic) as Nb by (by rewrite Ty).
    apply hr_retry; [done| |].
    - intros [e|[]] s' W' Hr; [apply hr_end; auto|done|apply hr_end; auto].
    - intros s' W'. cbn. split; [by left|apply settled_refl].
  Qed.
  Lemma hr_iter s : at_work s -> t_type tk = TIterator -> hr (iter_eval E t) s.
  Proof.
    intros W Ty. assert (forall s, hr (ret (inr EvalDone)) s) as Hd by (intros s0; apply hr_none; unfold succeeded; by rewrite Ty).
    unfold iter_eval. apply hr_get_ti; [done|]. intros x Hx Et. rewrite Et. case_bool_decide; [apply Hd|].
    destruct (ti_wd x !! "_iterator") as [[]|]; try (unfold hr; done); [by apply hr_iter_step|].
    destruct (t_loop tk) as [lc|]; [|apply Hd].
    apply hr_bind; [| |done].
    { unfold iterate_on. destruct (lc_iter lc) as [v0|]; [|apply (rq_ret _ _ _ _ _ L0)]. destruct v0; try apply (rq_ret _ _ _ _ _ L0).
      apply (rq_bind _ _ _ _ _ L0); [apply (rq_ext _ _ _ _ _ L0)|]. intros []; [apply (rq_ret _ _ _ _ _ L0)|apply (rq_ret _ _ _ _ _ L0)|apply (rq_panic _ _ _ _ _ L0)]. }
    intros [e|v] s1 W1; [by apply hr_none|].
    assert (forall v, hr (match make_iter E v with
        | None => ret (inl (EOther ("iterator '" +:+ t_name tk +:+ "' not properly configured")))
        | Some it => set_wd t "_iterator" (WIter it) ;; set_wd t "iteration" (WIteration VNil VNil 0) ;; iter_step E t it
        end) s1) as HI.
    { intros v'. destruct (make_iter E v'); [|by apply hr_none].
      apply hr_bind; [apply (rq_set_wd _ _ _ _ _ L0 L3)| |done]. intros [] s2 W2.
      apply hr_bind; [apply (rq_set_wd _ _ _ _ _ L0 L3)| |done]. intros [] s3 W3. by apply hr_iter_step. }
    destruct v; [apply Hd|..]; apply HI.
  Qed.
  Lemma hr_dw s : at_work s -> t_type tk = TDoWhile -> (forall x, s_tis s !! t = Some x -> ti_status x <> TSkipped) -> hr (dw_eval E t) s.
  Proof.
    intros W Ty Hs. unfold dw_eval. apply hr_get_ti; [done|]. intros x Hx _. case_bool_decide as Hb; [by destruct (Hs x)|].
    apply hr_bind; [apply (rq_init_index _ _ _ _ _ L0 L3)| |done]. intros [] s1 W1.
    assert (t_type tk <> TBasic) as Nb by (by rewrite Ty).
    apply hr_retry; [done| |].
    - intros [e|[]] s' W' Hr; [apply hr_end; auto|done|apply hr_end; auto].
    - intros s' W'. pose proof (cond_settled E t NI s') as Hc.
      assert (match (finally (check_cond E t) (update_index t) s').1 with Ok r => succeeded tk r \/ exists e, t_type tk = TDoWhile /\ r = inl e | _ => True end) as Hr.
      2:{ destruct (finally _ _ s') as [[r| | |] s2]; try done. }
      unfold finally, bind at 1, catch, bind at 1.
      assert (match (check_cond E t s').1 with Ok r => succeeded tk r \/ exists e, t_type tk = TDoWhile /\ r = inl e | _ => True end) as Hk.
      { unfold check_cond. destruct (work_ti (fun x => match t_loop (ti_task x) with _ => ret tt end) s' W') as (x1 & Hx1 & Et1 & _). rewrite (eval_get_ti _ _ _ _ Hx1).
        assert (forall r : err + eval_result, succeeded tk r \/ (exists e, t_type tk = TDoWhile /\ r = inl e) -> match (Ok r : out (err + eval_result)) with Ok r => succeeded tk r \/ exists e, t_type tk = TDoWhile /\ r = inl e | _ => True end) as Hok by done.
        assert (succeeded tk (inr EvalDone)) as Hdn by (unfold succeeded; by rewrite Ty).
        destruct (t_loop (ti_task x1)) as [[[src|] ? ? ? ?]|]; try (left; exact Hdn).
        unfold bind at 1, ext, tick, bind at 1, bind at 1, get, bind at 1, modify, ret at 1, bind at 1, ret at 1.
        destruct (e_cond E _ _ src) as [v|e|msg]; [|right; eauto|done].
        unfold bind at 1, log_ev, modify. destruct v as [|[]| | | | |]; cbn [fst panic ret]; first [exact I|left; exact I|left; exact Hdn]. }
      destruct (check_cond E t s') as [[r|m| |] s2]; try done; unfold ret at 1; unfold bind at 1.
      + cbn [fst] in Hk. destruct (update_index t s2) as [[[]| | |] s3]; done.
      + destruct (update_index t s2) as [[[]| | |] s3]; done.
  Qed.
  Lemma hr_eval s : at_work s -> (forall x, s_tis s !! t = Some x -> ti_status x <> TSkipped) -> hr (beh_eval E (t_type tk) t) s.
  Proof. intros W Hs. destruct (t_type tk) eqn:Ty; cbn [beh_eval]; [by apply hr_basic|by apply hr_iter|by apply hr_dw]. Qed.
End Collect.

Section Rounds.
  Local Set Default Proof Using "Type*".
  Context (E : env) (d : defn) (uri : string) (NI : e_icpt E = None).

  (** One evaluation. *)
  Lemma round_collects s t x r s1 lc :
    running E d uri s -> evaluates E s t x r s1 -> ti_status x <> TWaiting -> t_loop (ti_task x) = Some lc -> lc_acc lc = true ->
    ~ scoped E (all_key (t_id (ti_task x))) ->
    let v s := attr_of s (ti_inst x) (all_key (t_id (ti_task x))) in
    is_Some (s_insts s !! ti_inst x) /\ is_Some (s_insts s1 !! ti_inst x) /\
    if succeeded (ti_task x) r then
      exists x1 b, s_tis s1 !! t = Some x1 /\ held E (v s) b /\ v s1 = Some (VArr (b ++ [out_obj x1]))
    else (t_type (ti_task x) = TDoWhile -> exists z, r = inr z) -> v s1 = v s.
  Proof.
    intros R (Hm & Hx & Hs & Hd & w & q & Hq & Hr) Hw Hl Hacc Hsc v. apply running_reach in R as [c R].
    unfold main_status in Hm. destruct (s_insts s !! 0%nat) as [y|] eqn:Hy; [|done]. injection Hm as Ha.
    pose proof (popped_reach _ _ _ _ _ _ _ _ _ _ R Hq Hx Hy Ha) as R1.
    rewrite bool_decide_eq_false_2 in Hr by done.
    change (set_s_log (EvQDel w (ti_inst x) (t_id (ti_task x)) :: s_log s) (set_s_queue q (set_s_step (S (s_step s)) s))) with (popped w t x q s) in Hr.
    assert (ti_is (popped w t x q s) t (ti_inst x) (ti_task x)) as Ht by (exists x; done).
    destruct (inv_task _ _ _ _ _ R1 _ _ _ Ht) as (d' & h & (yi & Hyi & _) & _ & Hact).
    assert (accumulates (ti_task x) = true) as AC by by rewrite (accumulates_loop _ _ Hl).
    assert (at_work t (ti_inst x) (ti_task x) (popped w t x q s)) as W.
    { split; [|eauto]. split; [done|]. by eapply fresh_okq, reach_fresh. }
    pose proof (hr_eval E t (ti_inst x) (ti_task x) NI Hact AC Hsc _ W) as H. specialize (H ltac:(intros x' Hx'; change (s_tis s !! t = Some x') in Hx'; congruence)).
    assert (is_Some (s_insts s1 !! ti_inst x)) as Hs1.
    { destruct (eval_quiet E t _ _ _ Ht (proj2 (proj1 W)) (proj2 (proj1 W))) as (_ & _ & _ & I & _). destruct (I _ _ Hyi) as (y' & Hy' & _). rewrite Hr in Hy'. eauto. }
    split; [change (s_insts s !! ti_inst x = Some yi) in Hyi; eauto|]. split; [done|].
    unfold hr in H. rewrite Hr in H. destruct (succeeded (ti_task x) r).
    - destruct H as (s2 & s3 & K & [[(x2 & Hx2 & Hi2 & Ht2) _] _] & (x' & y2 & y3 & l & Hx2' & Hy2 & Hy3 & Htis & _ & (ac & _ & Hwr) & Hat) & (Hin & _ & Hti)).
      rewrite Hx2 in Hx2'. injection Hx2' as <-. destruct (K ltac:(eauto)) as [_ K2].
      destruct (Hti x2) as (x1 & Hx1 & _ & _ & Ho1); [by rewrite Htis|].
      cbv zeta in Hwr. rewrite Ht2, AC in Hwr. destruct Hwr as (b & Hb & ->).
      exists x1, b. split; [done|]. split.
      + change (attr_of (popped w t x q s) (ti_inst x) (all_key (t_id (ti_task x)))) with (v s) in K2. rewrite <- K2. unfold attr_of. rewrite <- Hi2, Hy2. done.
      + unfold v, attr_of. rewrite Hin, <- Hi2, Hy3. cbn [mbind option_bind]. rewrite Hat. unfold out_obj. rewrite Ho1.
        destruct (acc_apply (ti_task x)); unfold put_all; cbn [app foldr].
        * rewrite lookup_union_r by apply mapped_all. apply lookup_union_Some_l, lookup_singleton.
        * apply lookup_union_Some_l, lookup_singleton.
    - intros Hz. destruct (H Hz) as [_ K]; [eauto|]. exact K.
  Qed.

  (** The evaluations of one task. *)
  Lemma rounds_collect s0 t x0 lc b0 :
    dotless_flow d -> dotless_env E -> ~ scoped E (all_key (t_id (ti_task x0))) ->
    running E d uri s0 -> s_tis s0 !! t = Some x0 -> t_loop (ti_task x0) = Some lc -> lc_acc lc = true ->
    (forall a, e_toarr E (VArr a) = Some a) ->
    let v s := attr_of s (ti_inst x0) (all_key (t_id (ti_task x0))) in
    held E (v s0) b0 ->
    forall l s, rounds E t s0 l s ->
      Forall (fun r => t_type (ti_task x0) = TDoWhile -> exists z, rd_result r = inr z) l ->
      (forall u x, s_tis s !! u = Some x -> ti_inst x = ti_inst x0 -> t_id (ti_task x) = t_id (ti_task x0) -> u = t) ->
      exists os, Forall2 (left_outputs E t) (successes (ti_task x0) l) os /\
        (v s = v s0 /\ os = [] \/ v s = Some (VArr (b0 ++ os))).
  Proof.
    intros Hdl HE Hsc R0 Hx0 Hl Ha Harr v Hb0. set (i := ti_inst x0) in *. set (k := all_key (t_id (ti_task x0))) in *.
    set (sole s := forall u x, s_tis s !! u = Some x -> ti_inst x = i -> t_id (ti_task x) = t_id (ti_task x0) -> u = t).
    set (S := successes (ti_task x0)).
    cut (forall l s, rounds E t s0 l s -> running E d uri s /\ (exists x, s_tis s !! t = Some x /\ ti_inst x = i /\ ti_task x = ti_task x0) /\
      (Forall (fun r => t_type (ti_task x0) = TDoWhile -> exists z, rd_result r = inr z) l -> sole s ->
       exists os, Forall2 (left_outputs E t) (S l) os /\ (v s = v s0 /\ os = [] \/ v s = Some (VArr (b0 ++ os))))).
    { intros H l s Hr Hf Hso. by apply H. }
    assert (~ error_name k) as Hke by (apply names_apart; left; unfold k; eauto).
    assert (forall s, running E d uri s -> (exists x, s_tis s !! t = Some x /\ ti_inst x = i /\ ti_task x = ti_task x0) -> is_Some (s_insts s !! i) /\ dotless (t_id (ti_task x0))) as Hin.
    { intros s R (x & Hx & Hi & Ht). apply running_reach in R as [c R]. assert (ti_is s t i (ti_task x0)) as Hti by (exists x; done).
      destruct (inv_task _ _ _ _ _ R _ _ _ Hti) as (d' & h & Hid & Htk & _). split; [by destruct Hid as (y & Hy & _); eauto|].
      by apply (inv_defs E d uri dotless_flow Hdl HE _ _ R _ _ _ Hid). }
    intros l s H. induction H as [|l s H IH|l s H IH Hq|l s x r s1 H IH Ev Hw].
    - split; [done|]. split; [eauto|]. intros _ _. exists []. split; [constructor|]. by left.
    - destruct IH as (R & Hti & Hg). assert (running E d uri (record_state E s).2) as R' by by apply running_record.
      split; [done|]. split; [by rewrite record_tis|]. intros Hf Hso. destruct Hg as (os & Hos & Hv); [done|intros u x; specialize (Hso u x); by rewrite record_tis in Hso|].
      exists os. split; [done|]. assert (v (record_state E s).2 = v s) as ->; [|done].
      destruct (Hin s R Hti) as [Hi _]. pose proof (ops_kept i k Hke) as O. destruct (op_record E (kept i k) O s Hi) as [_ ?]. done.
    - destruct IH as (R & Hti & Hg). assert (running E d uri (do_step E s).2) as R' by by apply running_step.
      split; [done|]. split; [by apply (step_ti_is E d uri s t i _ R)|]. intros Hf Hso.
      assert (sole s) as Hso1.
      { intros u x Hu Hiu Htu. destruct (step_ti_is E d uri s u (ti_inst x) (ti_task x) R) as (x' & Hx' & Hi' & Ht'); [by exists x|].
        apply (Hso u x' Hx'); congruence. }
      destruct Hg as (os & Hos & Hv); [done..|]. exists os. split; [done|]. assert (v (do_step E s).2 = v s) as ->; [|done].
      destruct (Hin s R Hti) as [Hi Hd0]. destruct (step_kept E d uri s i k R Hke) as [_ ?]; [|done|done].
      intros w u q x Hqu Hxu. destruct (decide (ti_inst x = i)) as [Hiu|]; [|by right]. left. split; [|done].
      destruct (decide (t_id (ti_task x) = t_id (ti_task x0))) as [Hid|Hne].
      { pose proof (Hso1 u x Hxu Hiu Hid) as ->. by destruct (Hq w q). }
      apply running_reach in R as [c R]. assert (ti_is s u (ti_inst x) (ti_task x)) as Hti1 by (exists x; done).
      destruct (inv_task _ _ _ _ _ R _ _ _ Hti1) as (d' & h & Hid & Htk & _).
      apply (foreign_other (t_id (ti_task x0))); [done|by apply (inv_defs E d uri dotless_flow Hdl HE _ _ R _ _ _ Hid)|congruence|by left].
    - destruct IH as (R & (x' & Hx' & Hi & Ht) & Hg). assert (running E d uri (do_step E s).2) as R' by by apply running_step.
      split; [done|]. split; [by apply (step_ti_is E d uri s t i _ R); exists x'|]. intros [Hf Hf1]%Forall_app Hso.
      assert (sole s) as Hso1.
      { intros u x1 Hu Hiu Htu. destruct (step_ti_is E d uri s u (ti_inst x1) (ti_task x1) R) as (x2 & Hx2 & Hi' & Ht'); [by exists x1|].
        apply (Hso u x2 Hx2); congruence. }
      destruct (Hg Hf Hso1) as (os & Hos & Hv). assert (x' = x) as ->. { destruct Ev as (_ & Hx & _). congruence. }
      destruct (round_collects s t x r s1 lc R Ev Hw) as (Hin0 & Hin1 & Hr); [by rewrite Ht|done|by rewrite Ht|]. rewrite Hi, Ht in Hr. fold k in Hr. cbv zeta in Hr.
      rewrite Hi in Hin1. assert (v (do_step E s).2 = v s1) as Hv1.
      { unfold v. rewrite (evaluates_step _ _ _ _ _ _ Ev). by apply (conclude_kept E t r i k s1 Hke). }
      unfold S, successes. rewrite filter_app. fold (successes (ti_task x0) l). fold (S l).
      destruct (succeeded (ti_task x0) r) eqn:Hsr.
      + destruct Hr as (x1 & b & Hx1 & Hb & Hv2). rewrite (filter_cons_True _ (mk_round s (happened s s1) r) []); [|change (Is_true (succeeded (ti_task x0) r)); by rewrite Hsr].
        exists (os ++ [out_obj x1]). split.
        { apply Forall2_app; [done|]. constructor; [|constructor]. exists x, s1, x1. done. }
        right. rewrite Hv1. unfold v. rewrite Hv2, app_assoc. f_equal. f_equal. f_equal.
        change (held E (v s) b) in Hb. destruct Hv as [[Hv ->]|Hv]; rewrite Hv in Hb.
        * rewrite app_nil_r. unfold held in Hb, Hb0. destruct (v s0); congruence.
        * unfold held in Hb. rewrite Harr in Hb. congruence.
      + rewrite (filter_cons_False _ (mk_round s (happened s s1) r) []); [|change (~ succeeded (ti_task x0) r); rewrite Hsr; by intros []]. rewrite app_nil_r.
        exists os. split; [done|]. rewrite Hv1. apply Forall_cons in Hf1 as [Hf1 _]. unfold v at 1 3. rewrite (Hr Hf1). exact Hv.
  Qed.
End Rounds.
