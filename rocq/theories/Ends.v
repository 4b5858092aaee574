(** How a step ends once the evaluation of its task is known: errors, error handlers, Return. No Go
    counterpart (proofs). *)
From Verif Require Export Run Around.
Local Open Scope Z_scope.

(** What execTask does with the result of the evaluation. *)
Definition conclude (E : env) (t : nat) (r : err + eval_result) : M unit :=
  match r with
  | inl e => handle_task_error E t e
  | inr EvalDone | inr EvalSkip => task_done E t
  | inr EvalWait => set_task_status t TWaiting
  | inr EvalFail => set_task_status t TFailed
  | inr EvalRepeat => track_task t ;; schedule_eval t
  end.

Section Ends.
  Local Set Default Proof Using "Type*".
  Context (E : env) (d : defn) (uri : string).

  Lemma evaluates_step s t x r s1 :
    evaluates E s t x r s1 -> (do_step E s).2 = (catch (conclude E t r) (exec_recover E t) s1).2.
  Proof.
    intros (Hm & Hx & Hs & Hd & w & q & Hq & Hr).
    unfold main_status in Hm. destruct (s_insts s !! 0%nat) as [y|] eqn:Hy; [|done]. injection Hm as Ha.
    unfold do_step, modify at 1, bind at 1. set (s0 := set_s_step (S (s_step s)) s) in *.
    unfold bind at 1, get_inst at 1, get at 1, bind at 1. change (s_insts s0 !! 0%nat) with (s_insts s !! 0%nat). rewrite Hy.
    unfold ret at 1. rewrite bool_decide_true by done. unfold bind at 1, get at 1.
    change (s_queue s0) with (s_queue s). rewrite Hq.
    unfold bind at 1, get_ti at 1, get at 1, bind at 1. change (s_tis s0 !! t) with (s_tis s !! t). rewrite Hx.
    unfold ret at 1, bind at 1, log_ev, modify, bind at 1. set (s2 := popped w t x q s).
    change (set_s_log (EvQDel w (ti_inst x) (t_id (ti_task x)) :: s_log s) (set_s_queue q s0)) with s2 in Hr.
    assert (exec_task E t s2 = catch (conclude E t r) (exec_recover E t) s1) as He.
    { unfold exec_task, catch, exec_body. unfold bind at 1, get_ti at 1, get at 1, bind at 1.
      change (s_tis s2 !! t) with (s_tis s !! t). rewrite Hx. unfold ret at 1.
      rewrite bool_decide_false by (intros []; done). unfold bind at 1.
      case_bool_decide; rewrite Hr; done. }
    unfold bind. match goal with |- context [exec_task E t ?s3] => change s3 with s2 end. rewrite He. by destruct (catch (conclude E t r) (exec_recover E t) s1) as [[]?].
  Qed.

  (** What an evaluation keeps. *)
  Lemma evaluates_quiet s t x r s1 :
    running E d uri s -> evaluates E s t x r s1 ->
    exists w q y y1 x1, s_queue s = (w, t) :: q /\ s_insts s !! 0%nat = Some y /\ i_status y = FActive /\ i_def y = d /\
      quiet E t (ti_inst x) (ti_task x) (popped w t x q s) s1 /\ okq (popped w t x q s) /\ sound s /\
      s_insts s1 !! 0%nat = Some y1 /\ same_flow y y1 /\
      s_tis s1 !! t = Some x1 /\ ti_inst x1 = ti_inst x /\ ti_task x1 = ti_task x.
  Proof.
    intros R (Hm & Hx & Hs & Hd & w & q & Hq & Hr). pose proof (running_sound _ _ _ _ R) as Hso.
    apply running_reach in R as [c R]. unfold main_status in Hm. destruct (s_insts s !! 0%nat) as [y|] eqn:Hy; [|done]. injection Hm as Ha.
    destruct (inv_main _ _ _ _ _ R) as (y' & Hy' & Hdef & _). rewrite Hy in Hy'. injection Hy' as <-.
    pose proof (popped_reach _ _ _ _ _ _ _ _ _ _ R Hq Hx Hy Ha) as R1. pose proof (fresh_okq _ (reach_fresh _ _ _ _ _ R1)) as F1.
    assert (quiet E t (ti_inst x) (ti_task x) (popped w t x q s) s1) as Q1.
    { assert (ti_is (popped w t x q s) t (ti_inst x) (ti_task x)) as Ht by (exists x; done).
      change s1 with (Ok r, s1).2. rewrite <- Hr. case_bool_decide; [by apply post_quiet|by apply eval_quiet]. }
    destruct (Q1 F1) as (_ & _ & _ & I1 & _ & T1 & _).
    destruct (I1 0%nat y Hy) as (y1 & Hy1 & _ & SF). destruct (T1 x Hx) as (x1 & Hx1 & Hi1 & Ht1 & _).
    exists w, q, y, y1, x1. done.
  Qed.

  (** The state after the evaluation with the flow and the task looked at. *)
  Lemma loc_run {A} i t (m : M A) y x s Q :
    loc i t m y x Q -> s_insts s !! i = Some y -> s_tis s !! t = Some x -> tot m s (fun a s' =>
      exists y' x' l n, s' = put i t y' x' l n s /\ Q a y' x' l).
  Proof. intros H Hy Hx. destruct (H s Hy Hx) as (a & y1 & x1 & l & n & Hm & HQ). eexists a, _. split; [done|]. eauto 10. Qed.

  Lemma unhandled_error t e s y x :
    s_insts s !! 0%nat = Some y -> s_tis s !! t = Some x -> ti_inst x = 0%nat -> cov_ok E -> no_error_link (ti_task x) ->
    i_handling y = false -> d_eh (i_def y) = None ->
    tot (handle_task_error E t e) s (fun _ s' => exists y', s_insts s' !! 0%nat = Some y' /\ i_status y' = FFailed /\
      i_rerr y' = Some e).
  Proof.
    intros Hy Hx Hi C Hn Hh Hd. eapply tot_mono.
    { eapply (loc_run 0 t _ y x s (fun _ y' _ _ => i_status y' = FFailed /\ i_rerr y' = Some e)); [|done|done].
      unfold handle_task_error. apply loc_bind, loc_set_task_status, loc_bind, loc_coverage; [done..|]. intros ls ev _ _.
      apply loc_bind, (loc_no_error _ _ _ C); [done|done|]. intros ev' _. apply loc_bti. cbv zeta. cbn [fst snd ti_inst set_ti_status].
      rewrite Hi. apply loc_binst. cbn [lmap set_i_links i_handling]. rewrite Hh. apply loc_bind, loc_append_error; [done..|].
      intros m1 m2 _ _. unfold handle_global_error. apply loc_binst. cbn [lmap set_i_links set_i_attrs i_handling i_def]. rewrite Hh, Hd.
      apply loc_bind, loc_upd_inst, loc_bind, loc_set_flow_status. cbn [Nat.eqb]. apply loc_upd_inst.
      cbn [set_i_rerr i_status i_rerr]. split; [|done].
      match goal with |- i_status (posted E FFailed ?y0) = _ => exact (proj1 (proj2 (proj2 (posted_fields E FFailed y0)))) end. }
    intros [] s' (y' & x' & l & n & -> & H). exists y'. by rewrite put_inst.
  Qed.

  (** The log of the actions around an evaluation. *)
  Lemma evaluations_logs s s' : logs around_ev s s' -> evaluations s' = evaluations s.
  Proof.
    intros (l & Hl & F). unfold evaluations, trace. rewrite Hl, rev_app_distr, omap_app.
    assert (forall l, Forall around_ev l -> omap (fun e => match e with EvAct i id _ _ => Some (i, id) | _ => None end) l = []) as H.
    { clear. induction 1 as [|e l He _ IH]; [done|]. cbn. destruct e; try done. destruct He as [[]|(?&?&?)]; done. }
    rewrite (H (rev l)); [by rewrite app_nil_r|]. rewrite Forall_forall in *. intros e He. apply F. by apply in_rev_elem.
  Qed.
  Lemma conclude_logs t r : op (logs around_ev) (catch (conclude E t r) (exec_recover E t)).
  Proof.
    pose proof (ops_logs around_ev (fun _ H => H)) as O. apply (op_catch _ O); [|intros; by apply op_recover].
    destruct r as [e|[]]; simpl; [by apply op_handle_error|by apply op_set_task_status|by apply op_task_done| |
      by apply op_set_task_status|by apply op_task_done].
    apply (op_bind _ O); [by apply op_track|]. intros. by apply op_schedule.
  Qed.
  Lemma step_evaluations s t x r s1 : evaluates E s t x r s1 -> evaluations (do_step E s).2 = evaluations s1.
  Proof. intros H. rewrite (evaluates_step _ _ _ _ _ H). apply evaluations_logs, conclude_logs. Qed.

  Lemma failure_stops s t x e s1 :
    running E d uri s -> cov_ok E -> d_eh d = None -> evaluates E s t x (inl e) s1 -> ti_inst x = 0%nat ->
    no_error_link (ti_task x) ->
    (exists y, s_insts (do_step E s).2 !! 0%nat = Some y /\ i_status y = FFailed /\ i_rerr y = Some e) /\
    (forall n, evaluations (after E n (do_step E s).2) = evaluations s1).
  Proof.
    intros R C Hd Ev Hi Hn. pose proof (evaluates_quiet _ _ _ _ _ R Ev) as (w & q & y & y1 & x1 & Hq & Hy & Ha & Hdef & _ & _ & So & Hy1 & SF & Hx1 & Hi1 & Ht1).
    assert (exists y, s_insts (do_step E s).2 !! 0%nat = Some y /\ i_status y = FFailed /\ i_rerr y = Some e) as H.
    { rewrite (evaluates_step _ _ _ _ _ Ev). cbn [conclude].
      destruct SF as (_ & Sh & Ss & Sd & _).
      assert (i_handling y1 = false) as Hh.
      { rewrite Sh. destruct (i_handling y) eqn:Hh; [|done]. destruct (So y Hy); [by cbn; rewrite Hdef|]. cbn in *. destruct H; [done|]. by rewrite Ha in *. }
      destruct (tot_run _ _ _ (tot_catch _ (exec_recover E t) _ _ (unhandled_error t e s1 y1 x1 Hy1 Hx1 ltac:(congruence) C ltac:(by rewrite Ht1) Hh ltac:(congruence))))
        as (a & _ & y' & H). eauto. }
    split; [done|]. intros n. destruct H as (y' & Hy' & Hs' & _).
    rewrite (ended_stays E n _ FFailed); [|unfold main_status; by rewrite Hy', <- Hs'|done].
    change (evaluations (do_step E s).2 = evaluations s1). by eapply step_evaluations.
  Qed.
End Ends.
