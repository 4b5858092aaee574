(** Concurrent execution: in every interleaving a task instance is scheduled at most once by its
    predecessors. No Go counterpart (proofs). *)
From Verif Require Export SpecConc Around Inv.
Local Open Scope Z_scope.

(** The number of times a task instance has been scheduled by its predecessors, as the engine knows it. *)
Definition flag (s : st) (t : nat) : nat :=
  match s_tis s !! t with Some x => Nat.b2n (ti_sched x) | None => 0%nat end.
Definition exempt (s : st) (t : nat) : Prop := hosting s t \/ looping s t.

(** ** The relation *)
Record rel (s s' : st) : Prop := mk_rel {
  r_okq : okq s';
  r_host : forall t, hosting s t -> hosting s' t;
  r_tis : forall t x, s_tis s !! t = Some x -> exists x', s_tis s' !! t = Some x' /\ ti_inst x' = ti_inst x /\ ti_task x' = ti_task x;
  r_grow : exists q, s_queue s' = s_queue s ++ q /\ forall t, ~ exempt s' t -> (times t q + flag s t <= flag s' t)%nat
}.
(** The same without an item being added. *)
Record rel0 (s s' : st) : Prop := mk_rel0 {
  z_okq : okq s';
  z_host : forall t, hosting s t -> hosting s' t;
  z_tis : forall t x, s_tis s !! t = Some x -> exists x', s_tis s' !! t = Some x' /\ ti_inst x' = ti_inst x /\ ti_task x' = ti_task x;
  z_queue : s_queue s' = s_queue s;
  z_flag : forall t, (flag s t <= flag s' t)%nat
}.
Lemma rel0_rel s s' : rel0 s s' -> rel s s'.
Proof.
  intros [A B C D F]. split; [done..|]. exists []. rewrite app_nil_r. split; [done|]. intros t _. apply (F t).
Qed.
Lemma exempt_mono s s' t : (forall t, hosting s t -> hosting s' t) ->
  (forall t x, s_tis s !! t = Some x -> exists x', s_tis s' !! t = Some x' /\ ti_inst x' = ti_inst x /\ ti_task x' = ti_task x) ->
  exempt s t -> exempt s' t.
Proof.
  intros Hh Ht [H|(x & Hx & H)]; [left; by apply Hh|right]. destruct (Ht t x Hx) as (x' & Hx' & _ & E). exists x'. by rewrite E.
Qed.
Lemma times_app t q1 q2 : times t (q1 ++ q2) = (times t q1 + times t q2)%nat.
Proof. unfold times. by rewrite filter_app, app_length. Qed.
Lemma times_one t w u : times t [(w, u)] = if decide (u = t) then 1%nat else 0%nat.
Proof. unfold times. rewrite filter_cons. simpl. by destruct (decide (u = t)). Qed.
Lemma rel_trans a b c : rel a b -> rel b c -> rel a c.
Proof.
  intros [A1 B1 C1 (q1 & Q1 & F1)] [A2 B2 C2 (q2 & Q2 & F2)]. split; [done|auto| |].
  - intros t x Hx. destruct (C1 t x Hx) as (x1 & Hx1 & I1 & T1). destruct (C2 t x1 Hx1) as (x2 & Hx2 & I2 & T2).
    exists x2. split_and!; congruence.
  - exists (q1 ++ q2). split; [by rewrite Q2, Q1, app_assoc|]. intros t Ht. rewrite times_app.
    specialize (F2 t Ht). specialize (F1 t). assert (Hb : ~ exempt b t) by (intros H; apply Ht; by eapply exempt_mono).
    specialize (F1 Hb). lia.
Qed.
Lemma rel0_trans a b c : rel0 a b -> rel0 b c -> rel0 a c.
Proof.
  intros [A1 B1 C1 Q1 F1] [A2 B2 C2 Q2 F2]. split; [done|auto| |congruence|].
  - intros t x Hx. destruct (C1 t x Hx) as (x1 & Hx1 & I1 & T1). destruct (C2 t x1 Hx1) as (x2 & Hx2 & I2 & T2).
    exists x2. split_and!; congruence.
  - intros t. specialize (F1 t). specialize (F2 t). lia.
Qed.

(** ** The elementary changes *)
Lemma rel0_same s s' : okq s -> s_insts s' = s_insts s -> s_tis s' = s_tis s -> s_nti s' = s_nti s -> s_sfctr s' = s_sfctr s ->
  s_queue s' = s_queue s -> rel0 s s'.
Proof.
  intros [O1 O2] Hi Ht Hn Hc Hq. split; [split| | |done|].
  - by rewrite Hn, Ht.
  - by rewrite Hc, Hi.
  - unfold hosting. by rewrite Hi.
  - rewrite Ht. eauto.
  - intros t. unfold flag. by rewrite Ht.
Qed.
Lemma rel0_refl s : okq s -> rel0 s s.
Proof. intros H. by apply rel0_same. Qed.
Lemma rel0_inst i f s : okq s -> (forall y, i_host (f y) = i_host y) -> rel0 s (p_inst i f s).
Proof.
  intros O Hf. split; [by apply okq_inst| | |done|done].
  - intros t (j & y & Hy & Hh). destruct (decide (i = j)) as [->|].
    + exists j, (f y). rewrite p_inst_at, Hy. split; [done|]. by rewrite Hf.
    + exists j, y. by rewrite p_inst_ne.
  - eauto.
Qed.
Lemma rel0_set tr i m s : okq s -> rel0 s (p_set tr i m s).
Proof.
  intros O. eapply rel0_trans; [by apply (rel0_inst i (fun y => set_i_attrs (m ∪ i_attrs y) y))|].
  apply rel0_same; try done. by apply okq_inst.
Qed.
Lemma rel0_fstat i z s : okq s -> rel0 s (p_fstat i z s).
Proof.
  intros O. eapply rel0_trans; [by apply (rel0_inst i (set_i_status z))|].
  apply rel0_same; try done. by apply okq_inst.
Qed.
Lemma rel0_ti t f s : okq s ->
  (forall x, ti_inst (f x) = ti_inst x /\ ti_task (f x) = ti_task x /\ (ti_sched x = true -> ti_sched (f x) = true)) -> rel0 s (p_ti t f s).
Proof.
  intros O Hf. split; [by apply okq_ti|done| |done|].
  - intros u x Hx. cbn. destruct (decide (t = u)) as [->|].
    + exists (f x). rewrite lookup_alter, Hx. split; [done|]. split; apply Hf.
    + exists x. by rewrite lookup_alter_ne.
  - intros u. unfold flag. cbn. destruct (decide (t = u)) as [->|]; [|by rewrite lookup_alter_ne].
    rewrite lookup_alter. destruct (s_tis s !! u) as [x|]; [|done]. cbn. destruct (Hf x) as (_ & _ & H).
    destruct (ti_sched x); [by rewrite H|]. cbn. lia.
Qed.
Lemma rel0_new x s : okq s -> rel0 s (set_s_tis (<[s_nti s := x]> (s_tis s)) (set_s_nti (S (s_nti s)) s)).
Proof.
  intros [O1 O2]. split; [split|done| |done|].
  - intros u Hu. cbn in *. rewrite lookup_insert_ne by lia. apply O1. lia.
  - done.
  - intros u y Hy. cbn. rewrite lookup_insert_ne; [by eauto|]. intros <-. rewrite O1 in Hy; [done|lia].
  - intros u. unfold flag. cbn. destruct (decide (s_nti s = u)) as [<-|].
    + rewrite O1 by lia. lia.
    + by rewrite lookup_insert_ne.
Qed.

(** ** The logic *)
Section Logic.
  Local Set Default Proof Using "Type*".
  Context (E : env) (R : st -> st -> Prop) (R0 : forall s s', rel0 s s' -> R s s') (Rt : forall a b c, R a b -> R b c -> R a c)
    (Ro : forall s s', R s s' -> okq s') (Rh : forall s s', R s s' -> forall t, hosting s t -> hosting s' t).

  (** [ho]: task instances known to have started a subflow. *)
  Definition zp (ho : nat -> Prop) {A} (m : M A) : Prop := forall s, okq s -> (forall u, ho u -> hosting s u) -> R s (m s).2.
  Lemma zp_weak (ho ho' : nat -> Prop) {A} (m : M A) : (forall u, ho u -> ho' u) -> zp ho m -> zp ho' m.
  Proof. intros H Hm s O Hh. apply Hm; auto. Qed.

  Section Ho.
  Context (ho : nat -> Prop).
  Notation op := (zp ho).
  Lemma zp_ret {A} (a : A) : op (ret a).
  Proof. intros s O _. by apply R0, rel0_refl. Qed.
  Lemma zp_panic {A} msg : op (panic msg : M A).
  Proof. intros s O _. by apply R0, rel0_refl. Qed.
  Lemma zp_fuel {A} : op (out_of_fuel : M A).
  Proof. intros s O _. by apply R0, rel0_refl. Qed.
  Lemma zp_blocked {A} : op ((fun s => (Blocked, s)) : M A).
  Proof. intros s O _. by apply R0, rel0_refl. Qed.
  Lemma zp_get : op get.
  Proof. intros s O _. by apply R0, rel0_refl. Qed.
  Lemma zp_bind {A B} (m : M A) (k : A -> M B) : op m -> (forall a, op (k a)) -> op (bind m k).
  Proof.
    intros Hm Hk s O Hh. specialize (Hm s O Hh). unfold bind. destruct (m s) as [[a| | |] s1]; try done.
    eapply Rt; [exact Hm|]. apply Hk; [by eapply Ro|]. intros u Hu. eapply Rh; eauto.
  Qed.
  Lemma zp_catch {A} (m : M A) h : op m -> (forall e, op (h e)) -> op (catch m h).
  Proof.
    intros Hm Hk s O Hh. specialize (Hm s O Hh). unfold catch. destruct (m s) as [[a|e| |] s1]; try done.
    eapply Rt; [exact Hm|]. apply Hk; [by eapply Ro|]. intros u Hu. eapply Rh; eauto.
  Qed.
  Lemma zp_finally {A} (m : M A) f : op m -> op f -> op (finally m f).
  Proof.
    intros Hm Hf. unfold finally. apply zp_bind.
    - apply zp_catch; [apply zp_bind; [done|intros; apply zp_ret]|intros; apply zp_ret].
    - intros r. apply zp_bind; [done|]. intros _. destruct r; [apply zp_panic|apply zp_ret].
  Qed.
  Lemma zp_iterM {A} (f : A -> M unit) l : (forall x, op (f x)) -> op (iterM f l).
  Proof. intros Hf. induction l; simpl; [apply zp_ret|]. apply zp_bind; auto. Qed.
  Lemma zp_modify f : (forall s, s_insts (f s) = s_insts s) -> (forall s, s_tis (f s) = s_tis s) -> (forall s, s_nti (f s) = s_nti s) ->
    (forall s, s_sfctr (f s) = s_sfctr s) -> (forall s, s_queue (f s) = s_queue s) -> op (modify f).
  Proof. intros H1 H2 H3 H4 H5 s O _. apply R0, rel0_same; [done|apply H1|apply H2|apply H3|apply H4|apply H5]. Qed.
  Lemma zp_upd_inst i f : (forall y, i_host (f y) = i_host y) -> op (upd_inst i f).
  Proof. intros Hf s O _. by apply R0, rel0_inst. Qed.
  Lemma zp_get_ti t : op (get_ti t).
  Proof. intros s O _. unfold get_ti, bind, get. destruct (s_tis s !! t); by apply R0, rel0_refl. Qed.
  Lemma zp_get_inst t : op (get_inst t).
  Proof. intros s O _. unfold get_inst, bind, get. destruct (s_insts s !! t); by apply R0, rel0_refl. Qed.
  Lemma zp_get_inst_at {B} j (k : inst -> M B) : (forall y, zp (fun u => ho u \/ i_host y = Some u) (k y)) -> op (bind (get_inst j) k).
  Proof.
    intros Hk s O Hh. unfold bind, get_inst, bind, get. destruct (s_insts s !! j) as [y|] eqn:Hy; [|by apply R0, rel0_refl].
    apply Hk; [done|]. intros u [Hu|Hu]; [auto|]. by exists j, y.
  Qed.
  Lemma zp_log e : op (log_ev e).
  Proof. intros s O _. by apply R0, rel0_same. Qed.
  Lemma zp_upd_ti t f : (forall x, ti_inst (f x) = ti_inst x /\ ti_task (f x) = ti_task x /\ (ti_sched x = true -> ti_sched (f x) = true)) -> op (upd_ti t f).
  Proof. intros Hf s O _. by apply R0, rel0_ti. Qed.
  Lemma zp_new i tk : op (new_tinst i tk).
  Proof. intros s O _. unfold new_tinst. destruct (t_act tk); [|by apply R0, rel0_refl]. by apply R0, rel0_new. Qed.

  Ltac go := repeat first
    [ apply zp_ret | apply zp_panic | apply zp_fuel | apply zp_get | apply zp_get_ti | apply zp_get_inst | apply zp_log
    | (apply zp_upd_ti; intros ?; split_and!; [reflexivity..|]; intros ?; solve [assumption|reflexivity]) | apply zp_new | (apply zp_upd_inst; intros ?; reflexivity) | (apply zp_modify; reflexivity) | (apply zp_iterM; intros ?)
    | lazymatch goal with |- zp _ (bind _ _) => apply zp_bind; [|intros ?] end ].

  Lemma zp_set_attrs tr i m : op (set_attrs tr i m).
  Proof.
    intros s O _. unfold set_attrs, bind, get_inst, bind, get. destruct (s_insts s !! i); [|by apply R0, rel0_refl]. by apply R0, (rel0_set tr).
  Qed.
  Lemma zp_set_value i n v : op (set_value E i n v).
  Proof. apply zp_set_attrs. Qed.
  Lemma zp_return_data i : op (get_return_data i).
  Proof. unfold get_return_data. go. destruct (i_rdata a); [go|]. destruct (d_md (i_def a)) as [[? []]|]; go. Qed.
  Lemma zp_post_flow i : op (post_flow_event E i).
  Proof.
    unfold post_flow_event. destruct (e_listener E); [|go]. go. destruct (bool_decide _); [go|]. go. apply zp_return_data.
  Qed.
  Lemma zp_set_task_status t z : op (set_task_status t z).
  Proof. unfold set_task_status. go. Qed.
  Lemma zp_track t : op (track_task t).
  Proof. unfold track_task. go. Qed.
  Lemma zp_find_task i tk : op (find_or_create_task i tk).
  Proof. unfold find_or_create_task. go. destruct (i_tasks a !! _); [go|]. go. Qed.
  Lemma zp_find_link i l : op (find_or_create_link i l).
  Proof. unfold find_or_create_link. go. destruct (i_links a !! _); go. Qed.
  Lemma zp_from_links t : op (from_links t).
  Proof. unfold from_links. go. apply zp_find_link. Qed.
  Lemma zp_to_links t : op (to_links t).
  Proof. unfold to_links. go. apply zp_find_link. Qed.
  Lemma zp_cov c i id : op (need_cov c i id).
  Proof. unfold need_cov. destruct (ic_cov c); go. Qed.
  Lemma zp_set_link i l z : op (set_link_status E i l z).
  Proof. unfold set_link_status. go. destruct (bool_decide _); [|go]. destruct (e_icpt E); [apply zp_cov|go]. Qed.
  Lemma zp_release i tk : op (release_task i tk).
  Proof. unfold release_task. go. Qed.
  Lemma zp_record : op (record_state E).
  Proof.
    unfold record_state. destruct (e_rec E); [|go]. go.
    - destruct (record_snapshot r); [|go]. destruct (e_ext E); go.
    - destruct (record_steps r); [|go]. destruct (e_ext E); go.
  Qed.
  Lemma zp_tick : op tick.
  Proof. unfold tick. go. Qed.
  Lemma zp_ext {A} t (f : nat -> view -> A) : op (ext t f).
  Proof. unfold ext. go. Qed.
  Lemma zp_append t e : op (append_error_data E t e).
  Proof. unfold append_error_data. go; apply zp_set_value. Qed.
  Lemma zp_task_error t e : op (set_task_error E t e).
  Proof. unfold set_task_error. go; apply zp_set_value. Qed.
  Lemma zp_add_cov t : op (add_activity_coverage E t).
  Proof.
    unfold add_activity_coverage. destruct (e_icpt E); [|go]. go; [|apply zp_cov].
    destruct (ic_collect i); go; [apply zp_from_links|apply zp_to_links].
  Qed.
  Lemma zp_lock {A} (m : M A) : op m -> op (with_lock E m).
  Proof.
    intros Hm. unfold with_lock. destruct (e_conc E); [|done]. apply zp_bind; [go|]. intros s.
    destruct (s_lock s); [apply zp_blocked|]. apply zp_bind; [go|]. intros _. apply zp_finally; [done|go].
  Qed.
  Lemma zp_settings t : op (apply_settings E t).
  Proof. unfold apply_settings. go. destruct (t_set _); [|go]. apply zp_bind; [apply zp_ext|]. intros []; go. Qed.
  Lemma zp_enter t : op (enter t).
  Proof.
    unfold enter. go; [apply zp_set_task_status|apply zp_from_links|].
    destruct (scan_links _ _ _) as [[]|]; go; apply zp_set_task_status.
  Qed.
  Lemma zp_clear : op clear_tasks.
  Proof. unfold clear_tasks. go. Qed.
  Lemma zp_host i : op (host_of i).
  Proof. unfold host_of. go. Qed.
  Lemma zp_set_flow_status i z : op (set_flow_status E i z).
  Proof.
    intros s O Hh. unfold set_flow_status, bind at 1, get_inst, bind at 1, get. destruct (s_insts s !! i) as [y|]; [|by apply R0, rel0_refl].
    unfold ret at 1. change (R s (post_flow_event E i (p_fstat i z s)).2).
    assert (H : rel0 s (p_fstat i z s)) by by apply rel0_fstat.
    eapply Rt; [by apply R0|]. apply zp_post_flow; [apply H|]. intros u Hu. apply (z_host _ _ H). auto.
  Qed.
  Lemma zp_entries i es : op (entries_of i es).
  Proof. unfold entries_of. go. destruct (resolve_entries _ _); go. Qed.
  Lemma zp_eval_link t l : op (eval_link E t l).
  Proof.
    unfold eval_link. go. destruct (l_expr l); [|go]. apply zp_bind; [apply zp_ext|]. intros []; go.
  Qed.
  Lemma zp_done_links t i ls a : op (done_links E t i ls a).
  Proof.
    revert a. induction ls as [|l ls IH]; intros a; simpl; [go|]. apply zp_bind; [|intros []; [go|apply IH]].
    unfold done_link. go; [apply zp_set_link|]. destruct (l_type l); go; try apply zp_set_link; try apply zp_eval_link.
    destruct a1 as [|[]]; go. apply zp_set_link.
  Qed.
  Lemma zp_beh_done t : op (beh_done E t).
  Proof.
    unfold beh_done. go; [apply zp_to_links|apply zp_set_task_status|]. destruct a; [go|]. apply zp_bind; [apply zp_done_links|].
    intros []; [go|]. go; [|apply zp_entries]. destruct (da_oth d); [|go]. destruct (_ && _); go. apply zp_set_link.
  Qed.
  Lemma zp_beh_skip t : op (beh_skip E t).
  Proof.
    unfold beh_skip. cbv zeta. go; [apply zp_to_links|apply zp_set_task_status|]. destruct a; [go|]. go; [apply zp_set_link|apply zp_entries].
  Qed.
  Lemma zp_beh_error t : op (beh_error E t).
  Proof.
    unfold beh_error. go; [apply zp_to_links|]. destruct (existsb _ _); [|go]. go; [apply zp_set_link|apply zp_entries].
  Qed.
  Lemma zp_flow_done i : op (flow_task_done i).
  Proof. unfold flow_task_done. go. Qed.
  End Ho.
End Logic.

(** ** Scheduling *)
Lemma bind_assoc_at {A B C} (m : M A) (k : A -> M B) (h : B -> M C) s :
  bind m (fun a => bind (k a) h) s = bind (bind m k) h s.
Proof. unfold bind. by destruct (m s) as [[]]. Qed.
Lemma rel_schedule s t : okq s -> exempt s t -> rel s (schedule_eval t s).2.
Proof.
  intros O He. unfold schedule_eval, bind, get_ti, bind, get. destruct (s_tis s !! t) as [x|] eqn:Hx; [|by apply rel0_rel, rel0_refl].
  cbn. destruct O as [O1 O2]. split; [by split| | |].
  - done.
  - intros u y Hy. exists y. done.
  - eexists. split; [reflexivity|]. intros u Hu. rewrite times_one. unfold flag. cbn. destruct (decide (t = u)) as [->|]; [|lia].
    by destruct Hu.
Qed.
(** A task that its predecessors schedule for the first time. *)
Lemma rel_first s t x : okq s -> s_tis s !! t = Some x -> forall s0, rel0 s0 s -> flag s0 t = 0%nat ->
  rel s0 (bind (upd_ti t (set_ti_sched true)) (fun _ => schedule_eval t) s).2.
Proof.
  intros O Hx s0 H0 Hf. destruct H0 as [A B C Q F].
  assert (Hp : s_tis (p_ti t (set_ti_sched true) s) !! t = Some (set_ti_sched true x)).
  { cbn. by rewrite lookup_alter, Hx. }
  assert (H1 : rel0 s (p_ti t (set_ti_sched true) s)) by by apply rel0_ti.
  unfold bind at 1. change (upd_ti t (set_ti_sched true) s) with (Ok tt, p_ti t (set_ti_sched true) s). cbv iota beta.
  remember (p_ti t (set_ti_sched true) s) as s1 eqn:Hs1. assert (Hq : s_queue s1 = s_queue s) by by rewrite Hs1. clear Hs1.
  unfold schedule_eval, bind, get_ti, bind, get. rewrite Hp. cbn. destruct H1 as [A1 B1 C1 Q1 F1]. split.
  - destruct A1. by split.
  - intros u Hu. exact (B1 u (B u Hu)).
  - intros u y Hy. destruct (C u y Hy) as (y1 & Hy1 & I1 & T1). destruct (C1 u y1 Hy1) as (y2 & Hy2 & I2 & T2).
    exists y2. split_and!; [done|congruence..].
  - eexists. split; [by rewrite Hq, Q|]. intros u _. rewrite times_one. destruct (decide (t = u)) as [<-|].
    + rewrite Hf. unfold flag. cbn. rewrite Hp. cbn. lia.
    + specialize (F u). specialize (F1 u). unfold flag in *. cbn in *. lia.
Qed.

Lemma bind_split {A B C} (P : st -> Prop) (m : M A) (k : A -> M B) (h : B -> M C) (g : A -> M C) s :
  P (bind m k s).2 -> (forall a s1, m s = (Ok a, s1) -> P (k a s1).2 -> bind (k a) h s1 = g a s1) -> bind (bind m k) h s = bind m g s.
Proof. intros HP H. unfold bind in *. destruct (m s) as [[a| | |] s1]; try done. by apply H. Qed.

Lemma bind_val {A B} (m : M A) (k : A -> M B) s a s1 : m s = (Ok a, s1) -> bind m k s = k a s1.
Proof. intros H. unfold bind. by rewrite H. Qed.

(** A basic task does not ask to be repeated. *)
Lemma bind_ok {A B} (m : M A) (k : A -> M B) s b s2 : bind m k s = (Ok b, s2) -> exists a s1, m s = (Ok a, s1) /\ k a s1 = (Ok b, s2).
Proof. unfold bind. destruct (m s) as [[]]; try done. eauto. Qed.
Lemma basic_eval_once E t s s1 : basic_eval E t s <> (Ok (inr EvalRepeat), s1).
Proof.
  intros (x & s2 & _ & H)%bind_ok. destruct (bool_decide _); [done|]. apply bind_ok in H as (r & s3 & _ & H).
  destruct r as [|[]]; done.
Qed.
Lemma basic_post_once E t s s1 : basic_post E t s <> (Ok (inr EvalRepeat), s1).
Proof.
  intros (r & s2 & _ & H)%bind_ok. apply bind_ok in H as (x & s3 & _ & H).
  destruct r as [e|]; [|done]. destruct e; try done. destruct (t_retry _) as [rc|]; [|done].
  apply bind_ok in H as ([|[c iv]] & s4 & _ & H); [done|]. destruct (0 <? c); [|done].
  apply bind_ok in H as (u & s5 & _ & H). apply bind_ok in H as (r' & s6 & _ & H). destruct r' as [|[]]; done.
Qed.

Section Main.
  Local Set Default Proof Using "Type*".
  Context (E : env) (Hc : e_conc E = true).
  Let R0 := rel0_rel.
  Let Rt := rel_trans.
  Let Ro := r_okq.
  Let Rh := r_host.
  Let I0 := fun s s' (H : rel0 s s') => H.
  Notation zr := (zp rel).
  Notation z0 := (zp rel0).
  Ltac go := repeat first
    [ apply (zp_ret rel R0 Rt Ro Rh) | apply (zp_panic rel R0 Rt Ro Rh) | apply (zp_fuel rel R0 Rt Ro Rh) | apply (zp_get rel R0 Rt Ro Rh) | apply (zp_get_ti rel R0 Rt Ro Rh)
    | apply (zp_get_inst rel R0 Rt Ro Rh) | apply (zp_log rel R0 Rt Ro Rh)
    | (apply (zp_upd_ti rel R0 Rt Ro Rh); intros ?; split_and!; [reflexivity..|]; intros ?; solve [assumption|reflexivity]) | (apply (zp_upd_inst rel R0 Rt Ro Rh); intros ?; reflexivity)
    | (apply (zp_modify rel R0 Rt Ro Rh); reflexivity)
    | lazymatch goal with |- zp _ _ (bind _ _) => apply (zp_bind rel R0 Rt Ro Rh); [|intros ?] end ].

  Lemma zr_schedule (ho : nat -> Prop) t : ho t -> zr ho (schedule_eval t).
  Proof. intros Ht s O Hh. apply rel_schedule; [done|]. left. auto. Qed.

  Lemma z0_then {A B} (m : M A) (k : A -> M B) s0 s : okq s0 -> rel0 s0 s -> z0 (fun _ => False) m ->
    (forall a s1, m s = (Ok a, s1) -> rel0 s0 s1 -> rel s0 (k a s1).2) -> rel s0 (bind m k s).2.
  Proof.
    intros O H Hm Hk. specialize (Hm s (z_okq _ _ H)). unfold bind. destruct (m s) as [[a| | |] s1] eqn:Hs; cbn in *.
    - apply Hk; [done|]. eapply rel0_trans; [done|]. apply Hm. done.
    - apply R0. eapply rel0_trans; [done|]. by apply Hm.
    - apply R0. eapply rel0_trans; [done|]. by apply Hm.
    - apply R0. eapply rel0_trans; [done|]. by apply Hm.
  Qed.

  Lemma zr_enter_list ho skip i es : (forall t, zr ho (skip t)) -> zr ho (enter_list E skip i es).
  Proof.
    intros Hs. induction es as [|[tk c] es IH]; cbn [enter_list]; [go|].
    apply (zp_bind rel R0 Rt Ro Rh); [apply (zp_find_task rel R0 Rt Ro Rh)|]. intros t s O Hh.
    unfold bind at 1, get_ti at 1, bind at 1, get at 1. destruct (s_tis s !! t) as [x|] eqn:Hx; [|by apply R0, rel0_refl].
    unfold ret at 1. rewrite Hc. destruct (ti_sched x) eqn:Hd; cbn [andb]; [by apply IH|].
    assert (Hf : flag s t = 0%nat) by (unfold flag; by rewrite Hx, Hd).
    assert (Hnext : forall s1, rel s s1 -> rel s (enter_list E skip i es s1).2).
    { intros s1 H1. eapply Rt; [exact H1|]. apply IH; [by apply H1|]. intros u Hu. apply (Rh _ _ H1). auto. }
    eapply z0_then; [done|by apply rel0_refl|apply (zp_enter rel0 I0 rel0_trans z_okq z_host)|].
    intros er s1 _ H1. destruct er.
    - by apply Hnext, R0.
    - eapply (z0_then _ _ s s1 O H1); [apply (zp_settings E rel0 I0 rel0_trans z_okq z_host)|].
      intros [e|] s2 _ H2; [by apply R0|].
      destruct (z_tis _ _ H2 t x Hx) as (x2 & Hx2 & _).
      pose proof (rel_first s2 t x2 (z_okq _ _ H2) Hx2 s H2 Hf) as H3.
      rewrite bind_assoc_at. unfold bind at 1. destruct (bind _ _ s2) as [[[]| | |] s3]; cbn [snd] in *; [|done..].
      by apply Hnext.
    - assert (H2 : rel s s1) by by apply R0.
      assert (H3 := Hs t s1 (Ro _ _ H2) (fun u Hu => Rh _ _ H2 u (Hh u Hu))).
      unfold bind at 1. destruct (skip t s1) as [[[]| | |] s3]; cbn [snd] in *.
      + apply Hnext. by eapply Rt.
      + by eapply Rt.
      + by eapply Rt.
      + by eapply Rt.
  Qed.
  Lemma zr_host_of {B} ho i (k : option nat -> M B) :
    (forall h, zr (fun u => ho u \/ h = Some u) (k h)) -> zr ho (bind (host_of i) k).
  Proof.
    intros Hk s O Hh. unfold host_of. rewrite <- bind_assoc_at. revert s O Hh. apply (zp_get_inst_at rel R0 Rt Ro Rh). intros y. apply (Hk (i_host y)).
  Qed.
  Lemma zr_global ho ent i e : (forall j es, zr ho (ent j es)) -> zr ho (handle_global_error E ent i e).
  Proof.
    intros He. unfold handle_global_error. go. destruct (i_handling a); [apply (zp_set_flow_status E rel R0 Rt Ro Rh)|]. go.
    destruct (d_eh (i_def a)).
    - go; [apply (zp_clear rel R0 Rt Ro Rh)|apply He].
    - go; [apply (zp_set_flow_status E rel R0 Rt Ro Rh)|]. destruct (i =? 0)%nat; [go|].
      apply (zp_bind rel R0 Rt Ro Rh); [apply (zp_record E rel R0 Rt Ro Rh)|]. intros _. apply zr_host_of. intros [h|]; [|go]. go. apply zr_schedule. by right.
  Qed.
  Lemma zr_complete ho i : zr ho (complete_flow E i).
  Proof.
    unfold complete_flow. apply (zp_bind rel R0 Rt Ro Rh); [apply (zp_set_flow_status E rel R0 Rt Ro Rh)|]. intros _.
    destruct (i =? 0)%nat; [go|]. apply (zp_get_inst_at rel R0 Rt Ro Rh). intros y.
    destruct (i_host y) as [h|]; go. apply zr_schedule. by right.
  Qed.
  Lemma zr_done ho ent t : (forall j es, zr ho (ent j es)) -> zr ho (handle_task_done E ent t).
  Proof.
    intros He. unfold handle_task_done. apply (zp_bind rel R0 Rt Ro Rh); [go|]. intros x. cbv zeta. apply (zp_bind rel R0 Rt Ro Rh).
    { destruct (bool_decide _); go; [apply (zp_beh_skip E rel R0 Rt Ro Rh)|apply (zp_beh_done E rel R0 Rt Ro Rh)|apply (zp_add_cov E rel R0 Rt Ro Rh)]. }
    intros [e|[nt es]].
    - go; [apply (zp_append E rel R0 Rt Ro Rh)|by apply zr_global].
    - go; [destruct nt; [apply (zp_flow_done rel R0 Rt Ro Rh)|go]| |apply (zp_release rel R0 Rt Ro Rh)]. destruct (_ || _); [apply zr_complete|].
      go. apply He.
  Qed.
  Lemma zr_enter_tasks ho n i es : zr ho (enter_tasks E n i es).
  Proof.
    revert i es. induction n as [|n IH]; intros i es; cbn [enter_tasks]; apply (zp_lock E rel R0 Rt Ro Rh), zr_enter_list; intros t; [go|].
    by apply zr_done.
  Qed.
  Lemma zr_enter_top ho i es : zr ho (enter_top E i es).
  Proof. unfold enter_top. go. apply zr_enter_tasks. Qed.
  Lemma zr_done_first ho t : zr ho (done_first E t).
  Proof.
    unfold done_first. apply (zp_bind rel R0 Rt Ro Rh); [go|]. intros x. cbv zeta. apply (zp_bind rel R0 Rt Ro Rh).
    { destruct (bool_decide _); go; [apply (zp_beh_skip E rel R0 Rt Ro Rh)|apply (zp_beh_done E rel R0 Rt Ro Rh)|apply (zp_add_cov E rel R0 Rt Ro Rh)]. }
    intros [e|[nt es]].
    - go; [apply (zp_append E rel R0 Rt Ro Rh)|apply zr_global; intros; apply zr_enter_top].
    - go; [destruct nt; [apply (zp_flow_done rel R0 Rt Ro Rh)|go]|]. destruct (_ || _); [|go].
      go. apply zr_complete.
  Qed.
  Lemma zr_handle_error ho t e : zr ho (handle_task_error E t e).
  Proof.
    unfold handle_task_error. go; [apply (zp_set_task_status rel R0 Rt Ro Rh)|apply (zp_add_cov E rel R0 Rt Ro Rh)|apply (zp_beh_error E rel R0 Rt Ro Rh)|].
    cbv zeta. destruct (a1.1).
    - go; [apply (zp_task_error E rel R0 Rt Ro Rh)| |apply (zp_release rel R0 Rt Ro Rh)]. destruct (a1.2); [go|]. go. apply zr_enter_top.
    - apply (zp_get_inst_at rel R0 Rt Ro Rh). intros y. destruct (i_handling y).
      + go; [apply (zp_set_flow_status E rel R0 Rt Ro Rh)|]. destruct (_ =? 0)%nat; [apply (zp_append E rel R0 Rt Ro Rh)|].
        go; [apply (zp_record E rel R0 Rt Ro Rh)|]. destruct (i_host y); [|go]. go. apply zr_schedule. by right.
      + go; [apply (zp_append E rel R0 Rt Ro Rh)|]. apply zr_global. intros. apply zr_enter_top.
  Qed.
  Lemma zr_recover ho t m : zr ho (exec_recover E t m).
  Proof.
    unfold exec_recover. go. destruct (i_handling a0); [go|]. go; [apply (zp_append E rel R0 Rt Ro Rh)|]. apply zr_global. intros. apply zr_enter_top.
  Qed.
  Lemma zr_start_instance ho i m : zr ho (start_instance E i m).
  Proof.
    unfold start_instance. go.
    - unfold parent_info. go; [apply (zp_host rel R0 Rt Ro Rh)|]. destruct a0; go.
    - apply (zp_set_attrs rel R0 Rt Ro Rh).
    - destruct (d_md (i_def a)); [apply (zp_set_attrs rel R0 Rt Ro Rh)|go].
    - apply (zp_set_attrs rel R0 Rt Ro Rh).
    - apply (zp_set_flow_status E rel R0 Rt Ro Rh).
    - apply zr_enter_top.
  Qed.
  Lemma rel0_new_embedded t uri d s : okq s -> rel0 s (new_embedded t uri d s).2.
  Proof.
    intros O. unfold new_embedded, bind, get, get_ti, bind, get. destruct (s_tis s !! t) as [x|] eqn:Hx; [|by apply rel0_refl].
    cbn. destruct O as [O1 O2]. split; [split| | |done|done]; cbn.
    - done.
    - intros j Hj. rewrite lookup_insert_ne by lia. apply O2. lia.
    - intros u (j & y & Hy & Hh). exists j, y. split; [|done]. cbn. rewrite lookup_insert_ne; [done|]. intros <-.
      rewrite O2 in Hy; [done|lia].
    - eauto.
  Qed.
  Lemma zr_start_subflow ho t uri ins : zr ho (start_subflow E t uri ins).
  Proof.
    unfold start_subflow. apply (zp_bind rel R0 Rt Ro Rh); [apply (zp_tick rel R0 Rt Ro Rh)|]. intros n. destruct (e_def E n uri); [|go..].
    apply (zp_bind rel R0 Rt Ro Rh).
    { intros s O _. by apply R0, rel0_new_embedded. }
    intros i. go; [apply zr_start_instance|]. destruct (e_icpt E); [|go]. go. apply (zp_cov rel R0 Rt Ro Rh).
  Qed.

  (** *** Evaluation *)
  Definition relq (s s' : st) : Prop := okq s -> rel s s'.
  Lemma leaves_rel t i tk : leaves E t i tk relq.
  Proof.
    split; split.
    - intros s O. by apply R0, rel0_refl.
    - intros a b c H1 H2 O. eapply Rt; [by apply H1|]. apply H2. eapply Ro. by apply H1.
    - intros s _ O. by apply R0, rel0_same.
    - intros e s _ _ O. by apply R0, rel0_same.
    - intros m s _ _ _ O. by apply R0, rel0_set.
    - intros f s _ Hf _ O. apply R0, rel0_ti; [done|]. intros x. destruct (Hf x) as (H1 & H2 & _ & H4 & _). by rewrite H4.
    - intros v s _ _ O. by apply R0, rel0_set.
    - intros d e s _ O. assert (H : zr (fun _ => False) (reply i d e)); [|by apply H].
      unfold reply. go. destruct (i_handler a); go.
    - intros d e s _ O. assert (H : zr (fun _ => False) (return_ i d e)); [|by apply H]. unfold return_. go.
    - intros uri ins s [(x & Hx & Hi & Ht) O] _. assert (H : rel s (start_subflow E t uri ins s).2).
      { by apply (zr_start_subflow (fun _ => False)). }
      split; [intros _; exact H|]. split; [|by eapply Ro]. destruct (r_tis _ _ H t x Hx) as (x' & Hx' & I & T). exists x'. split_and!; congruence.
    - intros n v s _ _ _ O. by apply R0, rel0_set.
    - intros ins it s x _ _ _ _ O. by apply R0, rel0_same.
    - intros e s _ O. by apply R0, rel0_same.
    - intros e s _ _ O. by apply R0, rel0_same.
    - intros k w s _ O. by apply R0, rel0_ti.
    - intros s x z _ _ _ _ O. unfold p_tstat. eapply Rt; [apply R0, (rel0_ti t (set_ti_status z)); done|].
      apply R0, rel0_same; try done. by apply okq_ti.
  Qed.

  (** *** Pieces *)
  Lemma rel_exec_first t s : okq s -> rel s (exec_first E t s).2.
  Proof.
    intros O. unfold exec_first. unfold bind at 1, get_ti, bind at 1, get. destruct (s_tis s !! t) as [x|] eqn:Hx; [|by apply R0, rel0_refl].
    unfold ret at 1. cbv zeta. destruct (bool_decide _); [by apply R0, rel0_refl|].
    set (m := if bool_decide _ then _ else _).
    assert (Hm : relq s (m s).2 /\ ti_is (m s).2 t (ti_inst x) (ti_task x) /\ okq (m s).2).
    { assert (Hp : ti_is s t (ti_inst x) (ti_task x) /\ okq s) by (split; [by exists x|done]).
      subst m. destruct (bool_decide _).
      - apply (rq_beh_post E t (ti_inst x) (ti_task x) relq (leaves_rel t _ _)). done.
      - apply (rq_beh_eval E t (ti_inst x) (ti_task x) relq (leaves_rel t _ _)). done. }
    assert (Hr : forall s1, m s = (Ok (inr EvalRepeat), s1) -> t_type (ti_task x) <> TBasic).
    { intros s1 Hs1 Hb. subst m. rewrite Hb in Hs1. cbn [beh_eval beh_post] in Hs1. destruct (bool_decide _).
      - by apply basic_post_once in Hs1.
      - by apply basic_eval_once in Hs1. }
    clearbody m. unfold bind at 1. destruct (m s) as [[r| | |] s1]; cbn [snd] in *; [|by apply Hm..].
    destruct Hm as (H1 & (x1 & Hx1 & _ & T1) & O1). specialize (H1 O). eapply Rt; [exact H1|].
    assert (Hz : forall (m' : M thread), zr (fun _ => False) m' -> rel s1 (m' s1).2) by (intros m' H; by apply H).
    destruct r as [e|[]]; try (apply Hz; go; fail).
    - apply Hz. go. apply zr_handle_error.
    - apply Hz. go. apply (zp_set_task_status rel R0 Rt Ro Rh).
    - specialize (Hr s1 eq_refl).
      assert (H2 : rel0 s1 (track_task t s1).2) by (apply (zp_track rel0 I0 rel0_trans z_okq z_host (fun _ => False)); done).
      unfold bind at 1. destruct (track_task t s1) as [[[]| | |] s2]; cbn [snd] in *; [|by apply R0..].
      eapply Rt; [by apply R0|]. destruct (z_tis _ _ H2 t x1 Hx1) as (x2 & Hx2 & _ & T2).
      assert (H3 : rel s2 (schedule_eval t s2).2).
      { apply rel_schedule; [apply H2|]. right. exists x2. split; [done|]. congruence. }
      unfold bind. destruct (schedule_eval t s2) as [[[]| | |] s3]; done.
    - apply Hz. go. apply (zp_set_task_status rel R0 Rt Ro Rh).
  Qed.
  Lemma zr_piece th : zr (fun _ => False) (piece E th).
  Proof.
    assert (Hrun : forall t (m : M thread), zr (fun _ => False) m -> zr (fun _ => False) (catch m (fun msg => bind (exec_recover E t msg) (fun _ => ret ThEnd)))).
    { intros t m Hm. apply (zp_catch rel R0 Rt Ro Rh); [done|]. intros e. go. apply zr_recover. }
    destruct th as [w t|t|t es|t| | |]; cbn [piece].
    - go. apply Hrun. intros s O _. by apply rel_exec_first.
    - apply Hrun. go. apply zr_done_first.
    - apply Hrun. go. apply zr_enter_top.
    - apply Hrun. go. apply (zp_release rel R0 Rt Ro Rh).
    - go.
    - go.
    - go.
  Qed.

  (** *** Runs *)
  Definition cinv (c : conc) : Prop :=
    okq (c_st c) /\ forall t, ~ exempt (c_st c) t -> (times t (c_taken c ++ s_queue (c_st c)) <= flag (c_st c) t)%nat.
  Lemma cinv_advance k c : cinv c -> cinv (advance E k c).
  Proof.
    intros [O H]. unfold advance. destruct (c_threads c !! k) as [th|]; [|done].
    assert (Hr := zr_piece th (c_st c) O (fun u (F : False) => False_ind _ F)). destruct (piece E th (c_st c)) as [o s']. cbn [snd] in Hr.
    destruct Hr as [O' B C (q & Q & F)]. split; [done|]. intros t Ht. cbn [c_st c_taken] in *. rewrite Q, app_assoc, times_app.
    specialize (F t Ht). assert (Hb : ~ exempt (c_st c) t) by (intros He; apply Ht; by eapply exempt_mono).
    specialize (H t Hb). lia.
  Qed.
  Lemma cinv_take c : cinv c -> cinv (take_item c).
  Proof.
    intros Hi. unfold take_item. destruct (s_insts (c_st c) !! 0%nat) as [y|]; [|exact Hi]. destruct (bool_decide _); [|exact Hi].
    destruct (s_queue (c_st c)) as [|[w t] q] eqn:Hq; [exact Hi|]. destruct Hi as [O H]. split; [exact O|]. intros u Hu.
    specialize (H u Hu). cbn. rewrite Hq in H. rewrite <- app_assoc. exact H.
  Qed.
  Lemma cinv_run chs c : cinv c -> cinv (conc_run E chs c).
  Proof.
    revert c. induction chs as [|ch chs IH]; intros c Hi; [done|]. cbn. apply IH. destruct ch; [by apply cinv_take|by apply cinv_advance].
  Qed.
  Lemma cinv_start d uri ins : cinv (conc_start E d uri ins).
  Proof.
    assert (O : okq (init_st d uri)).
    { split; [done|]. intros j Hj. cbn in *. rewrite lookup_singleton_ne; [done|lia]. }
    assert (H := zr_start_instance (fun _ => False) 0 ins (init_st d uri) O (fun u (F : False) => False_ind _ F)).
    destruct H as [O' _ _ (q & Q & F)]. split; [exact O'|]. intros t Ht. specialize (F t Ht).
    change (times t ([] ++ s_queue (start_instance E 0 ins (init_st d uri)).2) <= flag (start_instance E 0 ins (init_st d uri)).2 t)%nat.
    rewrite Q. cbn [app init_st s_queue]. lia.
  Qed.

  Lemma scheduled_once d uri ins chs t :
    let c := conc_run E chs (conc_start E d uri ins) in
    ~ hosting (c_st c) t -> ~ looping (c_st c) t -> (times t (c_taken c ++ s_queue (c_st c)) <= 1)%nat.
  Proof.
    cbv zeta. intros H1 H2. destruct (cinv_run chs _ (cinv_start d uri ins)) as [_ H]. specialize (H t).
    assert (Hf : forall s u, (flag s u <= 1)%nat) by (intros s u; unfold flag; destruct (s_tis s !! u) as [x|]; [destruct (ti_sched x)|]; cbn; lia).
    specialize (Hf (c_st (conc_run E chs (conc_start E d uri ins))) t). assert (Hn : ~ exempt (c_st (conc_run E chs (conc_start E d uri ins))) t) by (intros [|]; done).
    specialize (H Hn). lia.
  Qed.

  (** *** Without interleaving *)
  Definition fin (th : thread) : Prop := th = ThEnd \/ th = ThStuck \/ th = ThCrash.
  Definition next (th : thread) (s : st) : thread * st :=
    let (o, s') := piece E th s in (after_piece o, s').
  Fixpoint pieces (n : nat) (th : thread) (s : st) : thread * st :=
    match n with O => (th, s) | S n' => let r := next th s in pieces n' r.1 r.2 end.
  Lemma pieces_fin n th s : fin th -> pieces n th s = (th, s).
  Proof. intros [->|[->| ->]]; induction n; done. Qed.
  Lemma run_pieces k n c th : c_threads c !! k = Some th ->
    conc_run E (replicate n (Go k)) c =
      mk_conc (pieces n th (c_st c)).2 (<[k := (pieces n th (c_st c)).1]> (c_threads c)) (c_taken c).
  Proof.
    revert c th. induction n as [|n IH]; intros c th Hk; cbn [replicate conc_run fold_left pieces].
    - destruct c as [s l q]. cbn in *. by rewrite list_insert_id.
    - change (fold_left _ (replicate n (Go k)) ?c) with (conc_run E (replicate n (Go k)) c). cbn [conc_step].
      unfold advance. rewrite Hk. unfold next. destruct (piece E th (c_st c)) as [o s'] eqn:Hp.
      rewrite (IH _ (after_piece o)); cbn [c_threads c_st c_taken fst snd].
      + f_equal. by rewrite list_insert_insert.
      + apply list_lookup_insert. by apply lookup_lt_Some in Hk.
  Qed.
  Definition recov (t : nat) (msg : string) : M thread := bind (exec_recover E t msg) (fun _ => ret ThEnd).
  (** A piece that hands on a thread, and the rest. *)
  Lemma pieces_next n t (m : M thread) (rest : M unit) (k : thread -> M unit) th s0 s :
    piece E th s0 = catch m (recov t) s ->
    rest s = bind m k s ->
    (forall th' s1, m s = (Ok th', s1) -> (pieces n th' s1).2 = (catch (k th') (exec_recover E t) s1).2) ->
    (pieces (S n) th s0).2 = (catch rest (exec_recover E t) s).2.
  Proof.
    intros Hp Hr Hk. cbn [pieces]. unfold next. rewrite Hp. unfold catch. rewrite Hr. unfold bind at 1.
    destruct (m s) as [[th'|msg| |] s1] eqn:Hm; cbn [fst snd].
    - cbn [after_piece]. rewrite Hk by done. unfold catch. by destruct (k th' s1) as [[] ?].
    - unfold recov, bind. destruct (exec_recover E t msg s1) as [[] ?]; cbn [fst snd ret after_piece]; rewrite pieces_fin by (unfold fin; auto); done.
    - by rewrite pieces_fin by (by right; right).
    - by rewrite pieces_fin by (by right; left).
  Qed.
  Definition rest_release (t : nat) : M unit := bind (get_ti t) (fun x => release_task (ti_inst x) (ti_task x)).
  Definition rest_enter (t : nat) (es : list entry) : M unit :=
    bind (get_ti t) (fun x => bind (enter_top E (ti_inst x) es) (fun _ => rest_release t)).
  Definition rest_done (t : nat) : M unit :=
    bind (done_first E t) (fun p => match p with PEnd => ret tt | PRelease => rest_release t | PEnter es => rest_enter t es end).
  Lemma pieces_release n t s : (pieces (S n) (ThRelease t) s).2 = (catch (rest_release t) (exec_recover E t) s).2.
  Proof.
    eapply (pieces_next n t _ _ (fun _ => ret tt)); [reflexivity| |].
    - unfold rest_release, bind. destruct (get_ti t s) as [[x| | |] s1]; try done. by destruct (release_task _ _ s1) as [[[]| | |] ?].
    - intros th' s1 H. apply bind_ok in H as (x & s2 & _ & H). apply bind_ok in H as (u & s3 & _ & H). injection H as <- <-.
      by rewrite pieces_fin by by left.
  Qed.
  Lemma pieces_enter n t es s : (pieces (S (S n)) (ThEnter t es) s).2 = (catch (rest_enter t es) (exec_recover E t) s).2.
  Proof.
    eapply (pieces_next _ t _ _ (fun _ => rest_release t)); [reflexivity| |].
    - unfold rest_enter. unfold bind. destruct (get_ti t s) as [[x| | |] s1]; try done. by destruct (enter_top E _ es s1) as [[] ?].
    - intros th' s1 H. apply bind_ok in H as (x & s2 & _ & H). apply bind_ok in H as (u & s3 & _ & H). injection H as <- <-.
      apply pieces_release.
  Qed.
  Lemma pieces_done n t s : (pieces (S (S (S n))) (ThDone t) s).2 = (catch (rest_done t) (exec_recover E t) s).2.
  Proof.
    eapply (pieces_next _ t _ _ (fun th => match th with ThEnd => ret tt | ThRelease t => rest_release t | ThEnter t es => rest_enter t es | _ => ret tt end)); [reflexivity| |].
    - unfold rest_done, bind. destruct (done_first E t s) as [[[]| | |] s1]; done.
    - intros th' s1 H. apply bind_ok in H as (p & s2 & _ & H). injection H as <- <-. destruct p.
      + by rewrite pieces_fin by by left.
      + apply pieces_release.
      + apply pieces_enter.
  Qed.
  (** The rest is what handleTaskDone does. *)
  Lemma rest_done_is t s : okq s -> is_Some (s_tis s !! t) -> rest_done t s = task_done E t s.
  Proof.
    intros O [x Hx]. unfold rest_done.
    assert (Hg : forall s1, rel s s1 -> exists x1, get_ti t s1 = (Ok x1, s1) /\ ti_inst x1 = ti_inst x /\ ti_task x1 = ti_task x).
    { intros s1 H. destruct (r_tis _ _ H t x Hx) as (x1 & Hx1 & I & T). exists x1. split; [|done]. unfold get_ti, bind, get. by rewrite Hx1. }
    destruct (Hg s (R0 _ _ (rel0_refl s O))) as (x0 & Hx0 & I0' & T0).
    assert (Hd : rel s (done_first E t s).2) by (apply (zr_done_first (fun _ => False)); done).
    assert (Hl : forall s1, rel s s1 -> rest_release t s1 = release_task (ti_inst x0) (ti_task x0) s1).
    { intros s1 H. destruct (Hg s1 H) as (x1 & Hx1 & I & T). unfold rest_release, bind. by rewrite Hx1, I, T, I0', T0. }
    assert (He : forall es s1, rel s s1 -> rest_enter t es s1 =
      bind (bind (enter_top E (ti_inst x0) es) (fun _ => ret tt)) (fun _ => release_task (ti_inst x0) (ti_task x0)) s1).
    { intros es s1 H. destruct (Hg s1 H) as (x1 & Hx1 & I & T). unfold rest_enter, bind. rewrite Hx1, I, <- I0'.
      assert (H1 := zr_enter_top (fun _ => False) (ti_inst x0) es s1 (Ro _ _ H) (fun u (F : False) => False_ind _ F)).
      destruct (enter_top E _ es s1) as [[o| | |] s2]; try done. cbn [snd ret] in *. apply Hl. by eapply Rt. }
    revert Hd. unfold done_first, task_done, handle_task_done. intros Hd. eapply bind_split; [exact Hd|]. clear Hd.
    intros x' s0 Hx' Hd. rewrite Hx0 in Hx'. injection Hx' as <- <-. cbv zeta in *. eapply bind_split; [exact Hd|]. clear Hd.
    intros [e|[nt es]] s1 _ Hd.
    - eapply bind_split; [exact Hd|]. clear Hd. intros y s2 _ Hd. eapply bind_split; [exact Hd|]. clear Hd. intros [] s3 _ Hd.
      unfold bind. destruct (handle_global_error _ _ _ _ s3) as [[[]| | |] s4]; done.
    - eapply bind_split; [exact Hd|]. clear Hd. intros fd s2 _ Hd. eapply bind_split; [exact Hd|]. clear Hd. intros y s3 _ Hd.
      destruct (fd || i_force y).
      + eapply bind_split; [exact Hd|]. intros [] s4 _ Hd'. by apply Hl.
      + by apply He.
  Qed.
  Lemma pieces_eval t w s : okq s -> is_Some (s_tis s !! t) ->
    (pieces 4 (ThEval w t) s).2 = (bind (get_ti t) (fun y => bind (log_ev (EvQDel w (ti_inst y) (t_id (ti_task y)))) (fun _ => exec_task E t)) s).2.
  Proof.
    intros O [x Hx]. assert (Hg : get_ti t s = (Ok x, s)) by (unfold get_ti, bind, get; by rewrite Hx).
    set (e := EvQDel w (ti_inst x) (t_id (ti_task x))).
    transitivity (exec_task E t (p_log e s)).2; [|by unfold bind; rewrite Hg].
    assert (O1 : okq (p_log e s)) by exact O. assert (Hx1 : s_tis (p_log e s) !! t = Some x) by exact Hx.
    eapply (pieces_next 3 t (exec_first E t) _ (fun th => match th with ThDone t => task_done E t | _ => ret tt end)).
    - cbn [piece]. unfold bind at 1. by rewrite Hg.
    - clearbody e. clear Hg Hx O. generalize dependent (p_log e s). intros s1 O Hx.
      unfold exec_first, exec_body. symmetry. eapply (bind_split (fun _ => True)); [done|]. intros x' s2 _ _. cbv zeta.
      destruct (bool_decide (_ \/ _)); [done|]. eapply (bind_split (fun _ => True)); [done|]. intros r s3 _ _.
      destruct r as [e'|[]]; try done.
      + unfold bind. destruct (handle_task_error E t e' s3) as [[[]| | |] ?]; done.
      + unfold bind. destruct (set_task_status t TFailed s3) as [[[]| | |] ?]; done.
      + eapply (bind_split (fun _ => True)); [done|]. intros u s4 _ _. unfold bind. destruct (schedule_eval t s4) as [[[]| | |] ?]; done.
      + unfold bind. destruct (set_task_status t TWaiting s3) as [[[]| | |] ?]; done.
    - intros th s1 H1. assert (H2 : rel (p_log e s) s1).
      { replace s1 with (exec_first E t (p_log e s)).2 by by rewrite H1. by apply rel_exec_first. }
      assert (Hth : th = ThEnd \/ th = ThDone t).
      { clear -H1. unfold exec_first in H1. apply bind_ok in H1 as (x' & s2 & _ & H). cbv zeta in H.
        destruct (bool_decide (_ \/ _)); [injection H as <- _; by left|]. apply bind_ok in H as (r & s3 & _ & H).
        destruct r as [e'|[]]; repeat (apply bind_ok in H as (? & ? & _ & H)); injection H as <- _; auto. }
      destruct Hth as [->| ->]; [by rewrite pieces_fin by by left|].
      rewrite pieces_done. unfold catch. rewrite rest_done_is; [done|apply H2|].
      destruct (r_tis _ _ H2 t x Hx1) as (x1 & ? & _). eauto.
  Qed.

  Lemma uninterrupted c y : okq (c_st c) -> s_insts (c_st c) !! 0%nat = Some y -> i_status y = FActive ->
    (forall w t, (w, t) ∈ s_queue (c_st c) -> is_Some (s_tis (c_st c) !! t)) -> s_queue (c_st c) <> [] ->
    let k := Go (length (c_threads c)) in
    c_st (conc_run E [Loop; k; k; k; k] c) = (do_step E (c_st c)).2.
  Proof.
    intros O Hy Ha Hq Hne. cbv zeta. change [Loop; ?k; ?k; ?k; ?k] with (Loop :: replicate 4 k). cbn [conc_run fold_left].
    change (fold_left _ (replicate 4 ?k) ?c) with (conc_run E (replicate 4 k) c). cbn [conc_step]. unfold take_item. rewrite Hy.
    rewrite bool_decide_eq_true_2 by done. destruct (s_queue (c_st c)) as [|[w t] q] eqn:Hs; [done|].
    assert (Ht : is_Some (s_tis (c_st c) !! t)) by (apply (Hq w); left).
    rewrite (run_pieces _ _ _ (ThEval w t)); cbn [c_threads c_st].
    - rewrite pieces_eval; [|exact O|exact Ht]. destruct Ht as [x Hx].
      assert (Hg : forall s, s_tis s = s_tis (c_st c) -> get_ti t s = (Ok x, s)) by (intros s E'; unfold get_ti, bind, get; by rewrite E', Hx).
      unfold do_step. rewrite (bind_val (modify (fun s => set_s_step (S (s_step s)) s)) _ (c_st c) tt _ eq_refl).
      rewrite (bind_val (get_inst 0) _ _ y (set_s_step (S (s_step (c_st c))) (c_st c))) by (unfold get_inst, bind, get; cbn; by rewrite Hy).
      rewrite bool_decide_eq_true_2 by done. rewrite (bind_val get _ _ _ _ eq_refl). cbn [s_queue set_s_step]. rewrite Hs.
      rewrite (bind_val (get_ti t) _ _ _ _ (Hg (set_s_step (S (s_step (c_st c))) (c_st c)) eq_refl)).
      rewrite (bind_val (get_ti t) _ _ _ _ (Hg (set_s_step (S (s_step (c_st c))) (set_s_queue q (c_st c))) eq_refl)).
      unfold bind, log_ev, modify. cbv iota beta. match goal with |- (exec_task E t ?a).2 = (let (_, _) := exec_task E t ?b in _).2 => change b with a end.
      destruct (exec_task E t _) as [[]]; done.
    - by rewrite lookup_app_r, Nat.sub_diag by done.
  Qed.
End Main.

Lemma after_last E n s : after E (S n) s = (do_step E (after E n s)).2.
Proof. revert s. induction n as [|n IH]; intros s; [done|]. change (after E (S n) (do_step E s).2 = (do_step E (after E n (do_step E s).2)).2). apply IH. Qed.
(** Every sequential run in which there is always something to do is one of the interleavings. *)
Lemma sequential_run E (Hc : e_conc E = true) d uri ins n :
  (forall k, (k < n)%nat -> let s := after E k (started E d uri ins) in
     (exists y, s_insts s !! 0%nat = Some y /\ i_status y = FActive) /\ s_queue s <> []) ->
  exists chs, c_st (conc_run E chs (conc_start E d uri ins)) = after E n (started E d uri ins).
Proof.
  induction n as [|n IH]; intros H.
  - by exists [].
  - destruct IH as [chs Hs]; [intros k Hk; apply H; lia|].
    destruct (H n ltac:(lia)) as ((y & Hy & Ha) & Hq).
    destruct (after_reach E d uri n None _ (started_reach E d uri ins)) as [c0 Hr].
    set (c := conc_run E chs (conc_start E d uri ins)) in *.
    exists (chs ++ [Loop; Go (length (c_threads c)); Go (length (c_threads c)); Go (length (c_threads c)); Go (length (c_threads c))]).
    unfold conc_run. rewrite fold_left_app. change (fold_left _ chs _) with c.
    pose proof (uninterrupted E Hc c y) as Hu. unfold conc_run in Hu. rewrite Hu; rewrite ?Hs.
    + symmetry. apply after_last.
    + by apply fresh_okq; eapply reach_fresh.
    + done.
    + done.
    + intros w t Hin. destruct (inv_rdy E d uri _ _ Hr) as (_ & H2 & _). apply H2 in Hin. destruct Hin as (i & tk & (x & Hx & _) & _). eauto.
    + done.
Qed.
