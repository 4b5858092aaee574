(** Loops whose activity waits. No Go counterpart (proof infrastructure). *)
From Verif Require Export Blind Panics.
Local Open Scope Z_scope.

(** The status of a task instance. *)
Definition stands (t : nat) (z : Z) (s : st) : Prop := exists x, s_tis s !! t = Some x /\ ti_status x = z.
Lemma get_ti_ok t s x s' : get_ti t s = (Ok x, s') -> s' = s /\ s_tis s !! t = Some x.
Proof. unfold get_ti, bind, get. destruct (s_tis s !! t); [|done]. by intros [= <- <-]. Qed.
Lemma stands_set t z s s' : set_task_status t z s = (Ok tt, s') -> stands t z s'.
Proof.
  unfold set_task_status. intros H. apply ok_bind in H as (x & s0 & H0 & H). apply get_ti_ok in H0 as [-> Hx].
  cbv [upd_ti modify log_ev bind] in H. injection H as <-. exists (set_ti_status z x). cbn. by rewrite lookup_alter, Hx.
Qed.
Lemma stands_wd t k w z s : stands t z s -> stands t z (set_wd t k w s).2.
Proof. intros (x & Hx & Hz). eexists. cbn. rewrite lookup_alter, Hx. done. Qed.
Lemma stands_index t z s : stands t z s -> stands t z (update_index t s).2.
Proof.
  intros (x & Hx & Hz). unfold update_index. rewrite (eval_get_ti _ _ _ _ Hx).
  destruct (ti_wd x !! "iteration") as [[]|]; try (by eexists); apply stands_wd; by exists x.
Qed.
Lemma stands_cond E t z s : stands t z s -> stands t z (check_cond E t s).2.
Proof.
  intros (x & Hx & Hz). unfold check_cond. rewrite (eval_get_ti _ _ _ _ Hx).
  destruct (t_loop (ti_task x)) as [[[src|] ? ? ? ?]|]; try (by eexists).
  unfold ext, tick, get, bind, modify, log_ev, ret, panic. cbn. destruct (e_cond E _ _ src) as [v| |]; cbn; try (by eexists).
  destruct v as [| [] | | | | |]; by exists x.
Qed.

Section Loop_wait.
  Context (E : env).

  (** A loop that is resumed is marked done, whatever it answers. *)
  Lemma resumed_done ty t s r s1 : ty <> TBasic -> beh_post E ty t s = (Ok (inr r), s1) -> stands t TDone s1.
  Proof.
    intros Hty H. destruct ty; [done| |]; cbn [beh_post] in H.
    - unfold iter_post in H. apply ok_bind in H as ([e|b] & s2 & _ & H); [by apply ok_bind in H as (? & ? & _ & [= ])|].
      apply ok_bind in H as ([] & s3 & H3 & H). apply stands_set in H3. apply ok_bind in H as (x & s4 & H4 & H). apply get_ti_ok in H4 as [-> _].
      destruct (ti_wd x !! "_iterator") as [[]|]; try done. by injection H as _ <-.
    - unfold dw_post in H. apply ok_bind in H as ([] & s0 & _ & H). apply ok_bind in H as ([e|b] & s2 & _ & H); [by apply ok_bind in H as (? & ? & _ & [= ])|].
      apply ok_bind in H as ([] & s3 & H3 & H). apply stands_set in H3. unfold finally in H.
      apply ok_bind in H as (o & s4 & H4 & H). apply ok_bind in H as ([] & s5 & H5 & H).
      assert (stands t TDone s4) as S4.
      { pose proof (stands_cond E t _ _ H3) as Hc. revert H4. unfold catch, bind, ret. destruct (check_cond E t s3) as [[a|e| |] s4']; cbn in Hc; intros [= _ <-]; done. }
      pose proof (stands_index t _ _ S4) as S5. rewrite H5 in S5. cbn in S5. destruct o; [done|]. by injection H as _ <-.
  Qed.

  Context (d : defn) (uri : string).

  (** It asks to go on, and is queued again. *)
  Lemma loop_queued s t x s1 : evaluates E s t x (inr EvalRepeat) s1 -> ti_status x = TWaiting -> t_type (ti_task x) <> TBasic ->
    stands t TDone (do_step E s).2 /\ s_insts (do_step E s).2 = s_insts s1 /\ evaluations (do_step E s).2 = evaluations s1 /\
    exists w, s_queue (do_step E s).2 = s_queue s1 ++ [(w, t)].
  Proof.
    intros Ev Hw Hty. pose proof Ev as (_ & _ & _ & _ & w & q & _ & Hr). rewrite bool_decide_true in Hr by done.
    apply resumed_done in Hr; [|done]. destruct Hr as (x1 & Hx1 & Hd).
    rewrite (evaluates_step _ _ _ _ _ _ Ev). cbn [conclude]. cbv [catch track_task schedule_eval get_ti get bind ret log_ev modify]. rewrite Hx1. cbn. rewrite Hx1. cbn. split_and!; [by exists x1|done| |by eexists].
    unfold evaluations, trace. cbn. rewrite !omap_app. cbn. by rewrite !app_nil_r.
  Qed.

  (** A work item of a task that is done is dropped. *)
  Lemma done_dropped s w t q x : main_status s = Some FActive -> s_queue s = (w, t) :: q -> s_tis s !! t = Some x -> ti_status x = TDone ->
    do_step E s = (Ok true, popped w t x q s).
  Proof.
    intros Hm Hq Hx Hd. unfold do_step, modify at 1, bind at 1. set (s0 := set_s_step _ s). unfold main_status in Hm.
    destruct (s_insts s !! 0%nat) as [y|] eqn:Hy; [|done]. injection Hm as Ha.
    assert (Hy0 : s_insts s0 !! 0%nat = Some y) by exact Hy. rewrite (eval_get_inst _ _ _ _ Hy0), bool_decide_true by done.
    unfold bind at 1, get. change (s_queue s0) with (s_queue s). rewrite Hq. assert (Hx0 : s_tis s0 !! t = Some x) by exact Hx. rewrite (eval_get_ti _ _ _ _ Hx0).
    unfold modify, log_ev, exec_task, exec_body, catch, bind at 1. unfold bind at 1, modify. unfold bind at 1.
    assert (Hx1 : s_tis (set_s_log (EvQDel w (ti_inst x) (t_id (ti_task x)) :: s_log (set_s_queue q s0)) (set_s_queue q s0)) !! t = Some x) by exact Hx.
    rewrite (eval_get_ti _ _ _ _ Hx1), bool_decide_true by (by right). done.
  Qed.

  (** The two in terms of what can be seen. *)
  Lemma waited_queued s t x s1 : evaluates E s t x (inr EvalRepeat) s1 -> ti_status x = TWaiting -> t_type (ti_task x) <> TBasic ->
    (exists x', s_tis (do_step E s).2 !! t = Some x' /\ ti_status x' = TDone) /\ exists w, s_queue (do_step E s).2 = s_queue s1 ++ [(w, t)].
  Proof. intros Ev Hw Hty. by destruct (loop_queued s t x s1 Ev Hw Hty) as (H1 & _ & _ & H2). Qed.
  Lemma done_skipped s w t q x : main_status s = Some FActive -> s_queue s = (w, t) :: q -> s_tis s !! t = Some x -> ti_status x = TDone ->
    (do_step E s).1 = Ok true /\ s_queue (do_step E s).2 = q /\ s_tis (do_step E s).2 = s_tis s /\ s_insts (do_step E s).2 = s_insts s /\
    evaluations (do_step E s).2 = evaluations s /\ main_status (do_step E s).2 = Some FActive.
  Proof.
    intros Hm Hq Hx Hd. rewrite (done_dropped s w t q x Hm Hq Hx Hd). split_and!; try done. unfold evaluations, trace. cbn. rewrite omap_app. cbn. by rewrite app_nil_r.
  Qed.

  (** With nothing to do, nothing happens. *)
  Lemma idle n s : main_status s = Some FActive -> s_queue s = [] -> main_status (after E n s) = Some FActive /\ evaluations (after E n s) = evaluations s /\ s_queue (after E n s) = [].
  Proof.
    revert s. induction n as [|n IH]; intros s Hm Hq; [done|]. cbn [after].
    assert (Hs : (do_step E s).2 = set_s_step (S (s_step s)) s).
    { unfold do_step, modify at 1, bind at 1. unfold main_status in Hm. destruct (s_insts s !! 0%nat) as [y|] eqn:Hy; [|done]. injection Hm as Ha.
      assert (Hy0 : s_insts (set_s_step (S (s_step s)) s) !! 0%nat = Some y) by exact Hy. rewrite (eval_get_inst _ _ _ _ Hy0), bool_decide_true by done.
      unfold bind at 1, get. change (s_queue (set_s_step (S (s_step s)) s)) with (s_queue s). by rewrite Hq. }
    rewrite Hs. by apply (IH (set_s_step (S (s_step s)) s)).
  Qed.

  Lemma loop_stalls s t x s1 : running E d uri s -> evaluates E s t x (inr EvalRepeat) s1 -> ti_status x = TWaiting -> t_type (ti_task x) <> TBasic ->
    s_queue s1 = [] -> forall n, main_status (after E n (do_step E s).2) = Some FActive /\ evaluations (after E n (do_step E s).2) = evaluations s1.
  Proof.
    intros R Ev Hw Hty Hq. destruct (loop_queued s t x s1 Ev Hw Hty) as ((x' & Hx' & Hd) & Hi & He & w' & Hq'). rewrite Hq, app_nil_l in Hq'.
    assert (Hm : main_status (do_step E s).2 = Some FActive).
    { destruct (evaluates_quiet _ _ _ _ _ _ _ _ R Ev) as (w & q & y0 & y01 & x1 & _ & _ & Ha & _ & _ & _ & _ & Hy01 & SF & _).
      destruct SF as (_ & _ & Ss & _). unfold main_status. rewrite Hi, Hy01. cbn. by rewrite Ss, Ha. }
    revert Hx' Hi He Hq' Hm. generalize (do_step E s).2. intros s2 Hx' Hi He Hq' Hm. intros [|n]; [done|]. cbn [after].
    rewrite (done_dropped s2 w' t [] x' Hm Hq' Hx' Hd). cbn [snd]. destruct (idle n (popped w' t x' [] s2) Hm eq_refl) as (H1 & H2 & _).
    split; [done|]. rewrite H2. unfold evaluations, trace. cbn. rewrite omap_app. cbn. by rewrite app_nil_r.
  Qed.
End Loop_wait.
