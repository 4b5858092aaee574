(** How subflows that end reach their host tasks: proofs for Props_Subflow. No Go counterpart. *)
From Verif Require Export Fails Isolation.
Local Open Scope Z_scope.

Lemma tot_record E s : recordable E -> tot (record_state E) s (fun _ s' => exists l, s' = set_s_log (l ++ s_log s) s).
Proof.
  intros (m & Hm & Hx). unfold record_state. rewrite Hm. apply tot_bind.
  eapply (tot_mono _ _ (fun _ s' => exists l, s' = set_s_log (l ++ s_log s) s)).
  - destruct (record_snapshot m); [|apply tot_ret; exists []; by destruct s].
    destruct Hx as [->|[? _]]; [|done]. apply tot_bind, tot_get, tot_log. by eexists [_].
  - intros [] s' [l ->]. destruct (record_steps m); [|apply tot_ret; eauto].
    destruct Hx as [->|[_ ?]]; [|done]. apply tot_log. exists (EvStep :: l). by destruct s.
Qed.

Section Sub.
  Local Set Default Proof Using "Type*".
  Context (E : env) (d : defn) (uri : string) (C : cov_ok E).

  (** The host of a flow that has failed is resumed with the error. *)
  Definition resumed (i ht : nat) (e : err) (s s' : st) : Prop :=
    exists y xh w, s_insts s' !! i = Some y /\ i_status y = FFailed /\ i_host y = Some ht /\
      s_tis s' !! ht = Some xh /\ ti_rerr xh = Some e /\ s_queue s' = s_queue s ++ [(w, ht)].

  Lemma tot_resume i ht e s y xh :
    recordable E -> s_insts s !! i = Some y -> i_host y = Some ht -> s_tis s !! ht = Some xh -> i_status y = FFailed ->
    tot (record_state E ;; upd_ti ht (set_ti_rerr (Some e)) ;; schedule_eval ht) s (fun _ s' => resumed i ht e s s').
  Proof.
    intros Rc Hy Hh Hx Hf. apply tot_bind. eapply tot_mono; [by apply tot_record|]. intros [] s' [l ->].
    apply tot_bind, tot_upd_ti. unfold schedule_eval. eapply tot_bti; [cbn; by rewrite lookup_alter, Hx|].
    apply tot_bind, tot_get, tot_bind, tot_modify, tot_log. exists y. eexists _, _.
    split_and!; [done|done|done|cbn; by rewrite lookup_alter, Hx|done|done].
  Qed.

  Lemma sub_error i t e s y x ht xh :
    s_insts s !! i = Some y -> i <> 0%nat -> s_tis s !! t = Some x -> ti_inst x = i -> no_error_link (ti_task x) -> recordable E ->
    i_handling y = true \/ d_eh (i_def y) = None -> i_host y = Some ht -> s_tis s !! ht = Some xh ->
    tot (handle_task_error E t e) s (fun _ s' => resumed i ht e s s').
  Proof.
    intros Hy Hi0 Hx Hi Hn Rc Hh Hht Hxh. unfold handle_task_error.
    eapply (tot_loc i t); [done|done|]. apply loc_set_task_status. intros n1.
    eapply tot_loc; [apply put_inst|apply put_ti|]. apply loc_coverage; [done..|]. intros ls ev _ _ n2. rewrite put_put.
    eapply tot_loc; [apply put_inst|apply put_ti|]. apply (loc_no_error _ _ _ C); [done|done|]. intros ev' _ n3. rewrite put_put.
    eapply tot_bti; [apply put_ti|]. cbv zeta. cbn [fst snd ti_inst set_ti_status]. rewrite Hi.
    assert (forall y' x' l n, exists xh', s_tis (put i t y' x' l n s) !! ht = Some xh') as Hht'.
    { intros y' x' l n. destruct (decide (ht = t)) as [->|]; [rewrite put_ti|rewrite put_ti_ne by done]; eauto. }
    eapply tot_binst; [apply put_inst|]. cbn [lmap set_i_links i_handling i_host]. destruct (i_handling y) eqn:Hhd.
    - eapply tot_loc; [apply put_inst|apply put_ti|]. apply loc_set_flow_status. intros n4. rewrite put_put.
      match goal with |- context [posted E FFailed ?y0] => destruct (posted_fields E FFailed y0) as (P1 & _ & P3 & _) end.
      destruct (Nat.eqb_spec i 0) as [|_]; [done|]. rewrite Hht.
      edestruct Hht' as [xh' Hxh']. eapply tot_mono.
      { eapply (tot_resume i ht e _ _ xh' Rc); [apply put_inst| |exact Hxh'|exact P3]. rewrite P1. exact Hht. }
      intros [] s' H. exact H.
    - destruct Hh as [|Hd]; [done|].
      eapply tot_loc; [apply put_inst|apply put_ti|]. apply loc_append_error; [done..|]. intros m1 m2 _ _ n4. rewrite put_put.
      unfold handle_global_error.
      eapply tot_binst; [apply put_inst|]. cbn [lmap set_i_links set_i_attrs i_handling i_def]. rewrite Hhd, Hd.
      eapply tot_loc; [apply put_inst|apply put_ti|]. apply loc_upd_inst. intros n5. rewrite put_put.
      eapply tot_loc; [apply put_inst|apply put_ti|]. apply loc_set_flow_status. intros n6. rewrite put_put.
      match goal with |- context [posted E FFailed ?y0] => destruct (posted_fields E FFailed y0) as (P1 & _ & P3 & _); set (y9 := posted E FFailed y0) in * end.
      cbn [i_host i_status set_i_status set_i_handling set_i_attrs set_i_links lmap] in P1, P3. rewrite Hht in P1. clearbody y9.
      destruct (Nat.eqb_spec i 0) as [|_]; [done|].
      set (s5 := put _ _ _ _ _ _ _). assert (exists xh', s_tis s5 !! ht = Some xh') as [xh' Hxh'] by apply Hht'.
      assert (s_insts s5 !! i = Some y9) as Hy9 by apply put_inst. assert (s_queue s5 = s_queue s) as Hq by done. clearbody s5.
      apply tot_bind. eapply tot_mono; [by apply tot_record|]. intros [] s' [l ->].
      apply tot_bind. unfold host_of. eapply tot_binst; [exact Hy9|]. apply tot_ret. rewrite P1.
      apply tot_bind, tot_upd_ti. unfold schedule_eval. eapply tot_bti; [cbn; by rewrite lookup_alter, Hxh'|].
      apply tot_bind, tot_get, tot_bind, tot_modify, tot_log. exists y9. eexists _, _.
      split_and!; [exact Hy9|exact P3|exact P1|cbn; by rewrite lookup_alter, Hxh'|done|]. cbn. by rewrite Hq.
  Qed.

  Lemma hosted s i y ht : running E d uri s \/ (exists c, reach E d uri c s) -> s_insts s !! i = Some y -> i_host y = Some ht -> exists xh, s_tis s !! ht = Some xh.
  Proof.
    intros R Hy Hh. assert (exists c, reach E d uri c s) as [c Rc] by (destruct R as [R|R]; [by apply running_reach in R|done]).
    destruct (inv_rdy _ _ _ _ _ Rc) as (_ & _ & I). destruct (I i (i_def y) ht) as (? & ? & (xh & Hxh & _) & _); [exists y; by rewrite <- Hh|]. eauto.
  Qed.

  (** A task of a subflow fails. *)
  Lemma sub_fails s t x e s1 y ht :
    running E d uri s -> recordable E -> evaluates E s t x (inl e) s1 -> ti_inst x <> 0%nat -> no_error_link (ti_task x) ->
    s_insts s !! ti_inst x = Some y -> i_host y = Some ht -> i_handling y = true \/ d_eh (i_def y) = None ->
    resumed (ti_inst x) ht e s1 (do_step E s).2.
  Proof.
    intros R Rc Ev Hi Hn Hy Hht Hh. pose proof (evaluates_reach E d uri _ _ _ _ _ R Ev) as R1.
    destruct (evaluates_quiet _ _ _ _ _ _ _ _ R Ev) as (w & q & _ & _ & x1 & _ & _ & _ & _ & Q & Ho & _ & _ & _ & Hx1 & Hi1 & Ht1).
    destruct (Q Ho) as (_ & _ & _ & I1 & _). destruct (I1 (ti_inst x) y Hy) as (y1 & Hy1 & _ & (S1 & S2 & S3 & S4 & _)).
    destruct (hosted s1 (ti_inst x) y1 ht) as [xh Hxh]; [by right; eauto|done|congruence|].
    assert (tot (handle_task_error E t e) s1 (fun _ s' => resumed (ti_inst x) ht e s1 s')) as Hto.
    { eapply (sub_error _ t e s1 y1 x1 ht xh); [done|done|done|done|by rewrite Ht1|done|rewrite S2, S4; done|congruence|done]. }
    rewrite (evaluates_step _ _ _ _ _ _ Ev). cbn [conclude].
    by destruct (tot_run _ _ _ (tot_catch _ (exec_recover E t) _ _ Hto)) as (a & _ & H).
  Qed.
End Sub.

(** ** What the host gets is not touched before it is resumed *)

Definition same_results (x x' : tinst) : Prop :=
  ti_inst x' = ti_inst x /\ ti_task x' = ti_task x /\ ti_out x' = ti_out x /\ ti_rerr x' = ti_rerr x.
Definition not_hosted (t h : nat) (s : st) : Prop := forall i tk d, ti_is s t i tk -> inst_is s i d (Some h) -> False.

Lemma astep_results E t h s s' x :
  t <> h -> fresh s -> astep E (Some t) s s' -> s_tis s !! h = Some x -> not_hosted t h s ->
  exists x', s_tis s' !! h = Some x' /\ same_results x x'.
Proof.
  intros Hne F St Hx Hno.
  assert (forall i y, s_insts s !! i = Some y -> i_host y = Some h -> act_inst s (Some t) i -> False) as Hact.
  { intros i y Hy Hh [(t' & tk & [= <-] & Ht)|(d & (y' & Hy' & _ & Hh') & _)].
    - eapply Hno; [exact Ht|]. exists y. split_and!; [done|done|done].
    - congruence. }
  assert (forall u f, (forall z, same_results z (f z)) -> exists x', s_tis (p_ti u f s) !! h = Some x' /\ same_results x x') as Hp.
  { intros u f Hf. destruct (decide (u = h)) as [->|]; cbn; [rewrite lookup_alter, Hx|rewrite lookup_alter_ne, Hx by done]; eexists; (split; [done|]); [apply Hf|done]. }
  assert (exists x', s_tis s !! h = Some x' /\ same_results x x') as H0 by (by exists x).
  destruct St; try exact H0.
  - destruct H1 as [[= ->]|Hk].
    + exists x. split; [|done]. cbn. by rewrite lookup_alter_ne.
    + apply Hp. intros z. destruct (H z) as (A1 & A2 & _). destruct (Hk z) as (_ & A3 & _ & A4). done.
  - exists x. split; [|done]. cbn. rewrite lookup_alter_ne; [done|]. intros ->. by eapply Hact.
  - exists x. split; [|done]. cbn. rewrite lookup_alter_ne; [done|]. intros ->. by eapply Hact.
  - exists x. split; [|done]. unfold p_tnew. cbn. rewrite lookup_insert_ne; [done|]. intros <-. destruct F as (F1 & _). by rewrite (F1 (s_nti s)) in Hx by lia.
  - unfold p_tstat. by apply Hp.
  - unfold p_tstat. by apply Hp.
  - unfold p_tstat. by apply Hp.
  - unfold p_tstat. by apply Hp.
  - unfold p_tstat. by apply Hp.
Qed.

Lemma astep_not_hosted E t h s s' : t <> h -> astep E (Some t) s s' -> (exists i tk d h', ti_is s t i tk /\ inst_is s i d h') -> not_hosted t h s -> not_hosted t h s'.
Proof.
  intros Hne St (i0 & tk0 & d0 & h0 & Ht0 & Hi0) Hno i tk d Ht Hi. pose proof (astep_grows _ _ _ _ St) as (G1 & G2 & _).
  destruct (astep_inst_is _ _ _ _ _ _ _ St Hi) as [Hi'|(t' & n & u & x & _ & [= <-] & [= ->] & _)]; [|done].
  destruct Ht as (x & Hx & H1 & H2). destruct (G1 _ _ _ Ht0) as (x' & Hx' & H1' & H2'). rewrite Hx in Hx'. injection Hx' as <-.
  apply (Hno i tk0 d); [|done]. destruct Ht0 as (x0 & Hx0 & ? & ?). exists x0. split_and!; congruence.
Qed.

Section Undisturbed.
  Local Set Default Proof Using "Type*".
  Context (E : env) (d : defn) (uri : string).

  Lemma undisturbed_running h s0 s : running E d uri s0 -> undisturbed E h s0 s -> running E d uri s.
  Proof. intros R H. induction H; [done|by apply running_record|by apply running_step]. Qed.

  Lemma step_results h s x :
    running E d uri s -> s_tis s !! h = Some x ->
    (forall w t q x y, s_queue s = (w, t) :: q -> s_tis s !! t = Some x -> s_insts s !! ti_inst x = Some y -> t <> h /\ i_host y <> Some h) ->
    exists x', s_tis (do_step E s).2 !! h = Some x' /\ same_results x x'.
  Proof.
    intros R Hx Hq. apply running_reach in R as [c R].
    destruct (do_step_cases E s) as [->|(w & t0 & q & x0 & y & Hqs & Hx0 & Hy & Ha & ->)]; [by exists x|].
    pose proof (popped_reach _ _ _ _ _ _ _ _ _ _ R Hqs Hx0 Hy Ha) as R1.
    destruct (inv_task _ _ _ _ _ R t0 (ti_inst x0) (ti_task x0) ltac:(exists x0; done)) as (d' & hh & (y0 & Hy0 & Hd0 & Hh0) & _).
    destruct (Hq _ _ _ _ _ Hqs Hx0 Hy0) as [Hne Hnh].
    pose proof (exec_asteps _ _ _ (Some t0) t0 _ R1) as St. pose proof (reach_fresh _ _ _ _ _ R1) as F1.
    assert (exists x', s_tis (popped w t0 x0 q s) !! h = Some x' /\ same_results x x') as H0 by (by exists x).
    assert (not_hosted t0 h (popped w t0 x0 q s)) as N0.
    { intros i tk d1 (z & Hz & <- & _) (y1 & Hy1 & _ & Hh1). change (s_tis s !! t0 = Some z) in Hz. change (s_insts s !! ti_inst z = Some y1) in Hy1. congruence. }
    assert (exists i tk d h', ti_is (popped w t0 x0 q s) t0 i tk /\ inst_is (popped w t0 x0 q s) i d h') as T0.
    { exists (ti_inst x0), (ti_task x0), d', hh. split; [by exists x0|by exists y0]. }
    revert F1 H0 N0 T0. clear -St Hne. induction St as [|s1 s2 s3 S1 _ IH]; [done|]. intros F1 (x' & Hx' & Sx) N0 T0.
    pose proof (astep_grows _ _ _ _ S1) as (G1 & G2 & _).
    apply IH; [by eapply astep_fresh| | |].
    - destruct (astep_results _ _ _ _ _ _ Hne F1 S1 Hx' N0) as (x2 & Hx2 & S2). exists x2. split; [done|]. unfold same_results in *. intuition congruence.
    - by eapply astep_not_hosted.
    - destruct T0 as (i & tk & d' & h' & A & B). exists i, tk, d', h'. auto.
  Qed.

  Lemma undisturbed_results h s0 s x :
    running E d uri s0 -> s_tis s0 !! h = Some x -> undisturbed E h s0 s -> exists x', s_tis s !! h = Some x' /\ same_results x x'.
  Proof.
    intros R Hx H. induction H as [|s H (x1 & Hx1 & S1)|s H (x1 & Hx1 & S1) Hq].
    - by exists x.
    - exists x1. split; [|done]. rewrite (record_tis E s). done.
    - destruct (step_results h s x1) as (x2 & Hx2 & S2); [by eapply undisturbed_running|done|done|].
      exists x2. split; [done|]. unfold same_results in *. intuition congruence.
  Qed.
End Undisturbed.

(** ** Resuming the host *)
Section Resume.
  Local Set Default Proof Using "Type*".
  Context (E : env).

  Definition ticked (s : st) : st := set_s_tick (S (s_tick s)) s.
  Lemma eval_no_post {B} t x s (k : option act -> M B) : s_tis s !! t = Some x -> no_post E x -> bind (ext t (e_post E)) k s = k None (ticked s).
  Proof.
    intros Hx Hp. unfold ext, bind, tick, bind, get, modify, ret. cbn [s_tick set_s_tick].
    rewrite Hp; [done|..]; unfold view_of; cbn [s_tis set_s_tick]; by rewrite Hx.
  Qed.
  Lemma post_error t x e s : s_tis s !! t = Some x -> no_post E x -> ti_rerr x = Some e -> post_eval_activity E t s = (Ok (inl e), ticked s).
  Proof.
    intros Hx Hp He. unfold post_eval_activity, recover_eval, catch. rewrite (eval_get_ti _ _ _ _ Hx). cbv zeta. rewrite (eval_no_post _ _ _ _ Hx Hp).
    unfold bind at 1, ret at 1. rewrite (eval_get_ti _ _ x); [|done]. by rewrite He.
  Qed.

  Lemma resumed_error t x e s r s1 :
    evaluates E s t x r s1 -> ti_status x = TWaiting -> no_post E x -> ti_rerr x = Some e -> t_retry (ti_task x) = None -> r = inl e.
  Proof.
    intros (_ & Hx & _ & _ & w & q & _ & Hr) Hw Hp He Hn. rewrite bool_decide_true in Hr by done.
    set (s0 := set_s_log _ _) in Hr. assert (s_tis s0 !! t = Some x) as Hx0 by exact Hx. clearbody s0. destruct (t_type (ti_task x)); cbn [beh_post] in Hr.
    - unfold basic_post, bind at 1 in Hr. rewrite (post_error _ _ _ _ Hx0 Hp He) in Hr. rewrite (eval_get_ti _ _ x) in Hr by done. rewrite Hn in Hr.
      destruct e; by injection Hr as <- _.
    - unfold iter_post, bind at 1 in Hr. rewrite (post_error _ _ _ _ Hx0 Hp He) in Hr.
      unfold set_task_status, bind at 1 in Hr. rewrite (eval_get_ti _ _ x) in Hr by done.
      unfold bind at 1, upd_ti, modify, log_ev, modify, ret in Hr. by injection Hr as <- _.
    - unfold dw_post in Hr. unfold bind at 1, init_index in Hr. rewrite (eval_get_ti _ _ x) in Hr by done.
      assert (forall k v, exists x2, s_tis (set_wd t k v s0).2 !! t = Some x2 /\ (set_wd t k v s0).1 = Ok tt /\ ti_rerr x2 = Some e /\ no_post E x2) as Hs.
      { intros k v. unfold set_wd, upd_ti, modify. cbn. rewrite lookup_alter, Hx0. eexists. split_and!; [done|done|done|]. exact Hp. }
      assert (exists k v, match ti_wd x !! "iteration" with Some w0 => set_wd t "iteration" w0 | None => set_wd t "iteration" (WDoWhile 0) end = set_wd t k v) as (k & v & Hkv)
        by (destruct (ti_wd x !! "iteration"); eauto).
      replace (match ti_wd x !! "iteration" with None => _ | Some w0 => _ end s0) with (set_wd t k v s0) in Hr by (rewrite <- Hkv; by destruct (ti_wd x !! "iteration")).
      destruct (Hs k v) as (x2 & Hx2 & Hok & He2 & Hp2). destruct (set_wd t k v s0) as [o s2]. cbn in Hx2, Hok. subst o.
      unfold bind at 1 in Hr. rewrite (post_error _ _ _ _ Hx2 Hp2 He2) in Hr.
      unfold set_task_status, bind at 1 in Hr. rewrite (eval_get_ti _ _ x2) in Hr by done.
      unfold bind at 1, upd_ti, modify, log_ev, modify, ret in Hr. by injection Hr as <- _.
  Qed.

  Lemma resumed_outputs t x s r s1 ac :
    e_icpt E = None -> evaluates E s t x r s1 -> is_Some (s_insts s !! ti_inst x) -> ti_status x = TWaiting -> no_post E x -> ti_rerr x = None ->
    t_type (ti_task x) = TBasic -> accumulates (ti_task x) = false -> t_act (ti_task x) = Some ac ->
    r = inr EvalDone /\ exists y1, s_insts s1 !! ti_inst x = Some y1 /\
      forall ns n v, ac_outs ac = Some ns -> n ∈ ns -> ti_out x !! n = Some v -> i_attrs y1 !! out_key (t_id (ti_task x)) n = Some v.
  Proof.
    intros NI (_ & Hx & _ & _ & w & q & _ & Hr) [y Hy] Hw Hp He Ty Hac Hact. rewrite bool_decide_true in Hr by done. rewrite Ty in Hr. cbn [beh_post] in Hr.
    set (s0 := set_s_log _ _) in Hr. assert (s_tis s0 !! t = Some x) as Hx0 by exact Hx. assert (s_insts s0 !! ti_inst x = Some y) as Hy0 by exact Hy. clearbody s0.
    set (m := mapped_outputs (t_id (ti_task x)) (ac_outs ac) (ti_out x)).
    assert (post_eval_activity E t s0 = (Ok (inr true), p_set (e_track E) (ti_inst x) m (ticked s0))) as Hpe.
    { unfold post_eval_activity, recover_eval, catch. rewrite (eval_get_ti _ _ _ _ Hx0). cbv zeta. rewrite (eval_no_post _ _ _ _ Hx0 Hp).
      unfold bind at 1, ret at 1. rewrite (eval_get_ti _ _ x) by done. rewrite He. unfold guard_err at 1. rewrite (eval_icpt E t NI _ x y) by done.
      rewrite Hac. unfold guard_err at 1. unfold bind at 1, bind at 1, apply_output_mapper at 1. rewrite (eval_get_ti _ _ x) by done. rewrite Hact.
      unfold set_values, set_attrs. rewrite (eval_get_inst _ _ y) by done. fold m.
      unfold ret at 1. unfold guard_err.
      change ((upd_inst (ti_inst x) (fun x0 => set_i_attrs (m ∪ i_attrs x0) x0) ;; log_ev (EvSet (ti_inst x) m (e_track E))) (ticked s0))
        with (Ok tt, p_set (e_track E) (ti_inst x) m (ticked s0)). cbv beta iota.
      match goal with |- context [bind (apply_asserts E t 1) ?k ?s9] => rewrite (eval_asserts E t NI 1 k x (set_i_attrs (m ∪ i_attrs y) y) s9) end; [done|done|].
      by apply (put_set E NI). }
    unfold basic_post, bind at 1 in Hr. rewrite Hpe in Hr. rewrite (eval_get_ti _ _ x) in Hr by done. injection Hr as <- <-.
    split; [done|]. exists (set_i_attrs (m ∪ i_attrs y) y). split; [by apply (put_set E NI)|].
    intros ns n v Hns Hn Hv. cbn. apply lookup_union_Some_l. unfold m. rewrite Hns. by apply mapped_in.
  Qed.
End Resume.

Section Hosts.
  Local Set Default Proof Using "Type*".
  Context (E : env) (d : defn) (uri : string).

  Lemma step_inst_is s i d' h : running E d uri s -> inst_is s i d' h -> inst_is (do_step E s).2 i d' h.
  Proof.
    intros R Hi. destruct (do_step_cases E s) as [->|(w & t0 & q & x0 & y & Hqs & Hx0 & Hy & Ha & ->)]; [done|]. apply running_reach in R as [c R].
    pose proof (popped_reach _ _ _ _ _ _ _ _ _ _ R Hqs Hx0 Hy Ha) as R1.
    pose proof (asteps_grows _ _ _ _ (exec_asteps _ _ _ (Some t0) t0 _ R1)) as (_ & G & _). by apply G.
  Qed.

  Lemma resumed_host s t x e s1 y ht :
    running E d uri s -> cov_ok E -> recordable E -> evaluates E s t x (inl e) s1 -> ti_inst x <> 0%nat -> no_error_link (ti_task x) ->
    s_insts s !! ti_inst x = Some y -> i_host y = Some ht -> i_handling y = true \/ d_eh (i_def y) = None ->
    (exists y', s_insts (do_step E s).2 !! ti_inst x = Some y' /\ i_status y' = FFailed) /\
    exists w, s_queue (do_step E s).2 = s_queue s1 ++ [(w, ht)].
  Proof.
    intros R C Rc Ev Hi Hn Hy Hht Hh. destruct (sub_fails E d uri C s t x e s1 y ht R Rc Ev Hi Hn Hy Hht Hh) as (y' & xh & w & H1 & H2 & _ & _ & _ & H3).
    split; eauto.
  Qed.

  Lemma host_fails s t x e s1 y ht s' xh r s2 :
    running E d uri s -> cov_ok E -> recordable E -> evaluates E s t x (inl e) s1 -> ti_inst x <> 0%nat -> no_error_link (ti_task x) ->
    s_insts s !! ti_inst x = Some y -> i_host y = Some ht -> i_handling y = true \/ d_eh (i_def y) = None ->
    undisturbed E ht (do_step E s).2 s' -> evaluates E s' ht xh r s2 -> ti_status xh = TWaiting -> no_post E xh -> t_retry (ti_task xh) = None ->
    r = inl e.
  Proof.
    intros R C Rc Ev Hi Hn Hy Hht Hh U Ev2 Hw Hp Hr. destruct (sub_fails E d uri C s t x e s1 y ht R Rc Ev Hi Hn Hy Hht Hh) as (y' & xh0 & w & _ & _ & _ & Hx & He & _).
    destruct (undisturbed_results E d uri ht _ _ _ (running_step _ _ _ _ R) Hx U) as (xh' & Hxh' & _ & _ & _ & He').
    assert (Ev3 := Ev2). destruct Ev3 as (_ & Hxh & _). rewrite Hxh in Hxh'. injection Hxh' as <-.
    eapply resumed_error; [exact Ev2|done|done|congruence|done].
  Qed.

  Lemma done_attrs s t x r s1 k y1 : evaluates E s t x r s1 -> ~ error_name k -> s_insts s1 !! ti_inst x = Some y1 ->
    attr_of (do_step E s).2 (ti_inst x) k = i_attrs y1 !! k.
  Proof.
    intros Ev He Hy1. rewrite (evaluates_step _ _ _ _ _ _ Ev). destruct (conclude_kept E t r (ti_inst x) k s1 He) as [_ ->]; [eauto|].
    unfold attr_of. by rewrite Hy1.
  Qed.

  Lemma host_gets s t x s1 l1 dt er l2 y ht s' xh r s2 ac :
    e_icpt E = None ->
    running E d uri s -> built d -> built_env E -> links_ok E -> evaluates E s t x (inr EvalDone) s1 -> ti_inst x <> 0%nat ->
    happened s s1 = l1 ++ EvReturn (ti_inst x) (Some dt) er :: l2 ->
    (forall j a b, EvReturn j a b ∉ l2) -> (forall a b, EvResult a b ∉ l2) ->
    s_insts s !! ti_inst x = Some y -> i_host y = Some ht ->
    undisturbed E ht (do_step E s).2 s' -> evaluates E s' ht xh r s2 -> ti_status xh = TWaiting -> no_post E xh ->
    t_type (ti_task xh) = TBasic -> t_loop (ti_task xh) = None -> t_act (ti_task xh) = Some ac ->
    r = inr EvalDone /\
    forall ns n v, ac_outs ac = Some ns -> n ∈ ns -> dt !! n = Some v -> attr_of (do_step E s').2 (ti_inst xh) (out_key (t_id (ti_task xh)) n) = Some v.
  Proof.
    intros NI R B BE L Ev Hi Hh H1 H2 Hy Hht U Ev2 Hw Hp Ty Hl Hac.
    assert (cov_ok E) as C by (intros c Hc; congruence).
    destruct (return_to_host E d uri s t x s1 l1 dt er l2 R B BE C L Ev Hi Hh H1 H2) as (y' & ht' & xh0 & w & Hy' & _ & Hht' & Hx & Ho & Hre & _).
    assert (ht' = ht) as ->.
    { assert (inst_is s (ti_inst x) (i_def y) (Some ht)) as Hii by (exists y; done).
      apply step_inst_is in Hii; [|done]. destruct Hii as (y2 & Hy2 & _ & Hh2). congruence. }
    destruct (undisturbed_results E d uri ht _ _ _ (running_step _ _ _ _ R) Hx U) as (xh' & Hxh' & _ & _ & Ho' & He').
    assert (Ev3 := Ev2). destruct Ev3 as (_ & Hxh & _). rewrite Hxh in Hxh'. injection Hxh' as <-.
    assert (running E d uri s') as R' by (eapply undisturbed_running; [|exact U]; by apply running_step).
    assert (is_Some (s_insts s' !! ti_inst xh)) as Hin.
    { apply running_reach in R' as [c R']. destruct (inv_task _ _ _ _ _ R' ht (ti_inst xh) (ti_task xh) ltac:(exists xh; done)) as (d' & hh & (y0 & Hy0 & _) & _). eauto. }
    destruct (resumed_outputs E ht xh s' r s2 ac NI Ev2 Hin Hw Hp ltac:(congruence) Ty) as (-> & y1 & Hy1 & Hout); [unfold accumulates; by rewrite Hl|done|].
    split; [done|]. intros ns n v Hns Hn Hv. erewrite done_attrs; [|exact Ev2| |exact Hy1].
    - eapply Hout; [done|done|]. rewrite Ho', Ho. done.
    - apply names_apart. right. eauto.
  Qed.

  Lemma resumed_own s t x r s1 ac ns n v s' :
    e_icpt E = None -> dotless_flow d -> dotless_env E -> ~ scoped E (out_key (t_id (ti_task x)) n) ->
    running E d uri s -> evaluates E s t x r s1 -> ti_status x = TWaiting -> no_post E x -> ti_rerr x = None ->
    t_type (ti_task x) = TBasic -> t_loop (ti_task x) = None ->
    t_act (ti_task x) = Some ac -> ac_outs ac = Some ns -> n ∈ ns -> ti_out x !! n = Some v ->
    meanwhile E (ti_inst x) (t_id (ti_task x)) (do_step E s).2 s' ->
    r = inr EvalDone /\ attr_of s' (ti_inst x) (out_key (t_id (ti_task x)) n) = Some v.
  Proof.
    intros NI Hd HE Hsc R Ev Hw Hp He Ty Hl Hact Hns Hn Hv M.
    assert (R0 := R). apply running_reach in R0 as [c R0]. assert (Hx := Ev). destruct Hx as (_ & Hx & _).
    assert (ti_is s t (ti_inst x) (ti_task x)) as Ht by (exists x; done).
    destruct (inv_task _ _ _ _ _ R0 _ _ _ Ht) as (d' & h & Hi' & Htk & _).
    assert (is_Some (s_insts s !! ti_inst x)) as Hin by (destruct Hi' as (y0 & Hy0 & _); eauto).
    destruct (resumed_outputs E t x s r s1 ac NI Ev Hin Hw Hp He Ty) as (-> & y1 & Hy1 & Hout); [unfold accumulates; by rewrite Hl|done|].
    split; [done|]. set (k := out_key _ _) in *.
    assert (~ error_name k) as Hk by (apply names_apart; right; unfold k; eauto).
    assert (running E d uri (do_step E s).2) as R' by by apply running_step.
    assert (dotless (t_id (ti_task x))) as Hdl by by apply (inv_defs E d uri dotless_flow Hd HE _ _ R0 _ _ _ Hi').
    pose proof (done_attrs s t x _ s1 k y1 Ev Hk Hy1) as Ha.
    destruct (meanwhile_kept E d uri (ti_inst x) (t_id (ti_task x)) k _ _ Hd HE Hdl R' M) as [_ H]; [right; unfold k; eauto|done| |].
    - rewrite (evaluates_step _ _ _ _ _ _ Ev). apply (conclude_kept E t _ (ti_inst x) k s1 Hk). eauto.
    - rewrite H, Ha. by eapply Hout.
  Qed.
End Hosts.
