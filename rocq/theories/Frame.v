(** What a task evaluation leaves alone: everything of other flows and tasks, and the status, tables
    and definition of its own flow. No Go counterpart (proofs). *)
From Verif Require Export Quiet.
Local Open Scope Z_scope.

(** The parts of a flow an evaluation of one of its tasks cannot change. *)
Definition same_flow (y y' : inst) : Prop :=
  i_host y' = i_host y /\ i_handling y' = i_handling y /\ i_status y' = i_status y /\ i_def y' = i_def y /\
  i_uri y' = i_uri y /\ i_tasks y' = i_tasks y /\ i_links y' = i_links y /\ i_handler y' = i_handler y /\
  (i_force y = true -> i_force y' = true).
Lemma same_flow_refl y : same_flow y y.
Proof. by split_and!. Qed.
Lemma same_flow_trans a b c : same_flow a b -> same_flow b c -> same_flow a c.
Proof. unfold same_flow. intuition congruence. Qed.

(** Events of flows above [k], or of the evaluated task itself. *)
Definition frame_ev (k i : nat) (tk : task) (e : event) : Prop :=
  match e with
  | EvSubCreated j _ p h => (k < j)%nat /\ p = i /\ h = t_id tk
  | EvFlowStatus j z => (k < j)%nat /\ z = FActive
  | EvFlowEvent j _ _ _ _ => (k < j)%nat
  | EvSet j _ _ => (k < j)%nat \/ j = i
  | EvTaskAdd j _ | EvQAdd _ j _ => (k < j)%nat
  | EvTaskUpd j id z => (k < j)%nat \/ (j = i /\ id = t_id tk /\ t_type tk <> TBasic)
  | EvAct j id _ _ | EvCond j id _ _ | EvActEnd j id _ | EvPost j id => j = i /\ id = t_id tk
  | EvReturn j _ _ => j = i
  | EvIcpt _ _ | EvAssert _ _ _ | EvCov _ _ | EvResult _ _ => True
  | _ => False
  end.
Lemma frame_ev_le k k' i tk e : (k <= k')%nat -> frame_ev k' i tk e -> frame_ev k i tk e.
Proof. intros Hk. destruct e; simpl; intuition lia. Qed.

Definition quiet (E : env) (t i : nat) (tk : task) (s s' : st) : Prop := okq s ->
  okq s' /\ (s_nti s <= s_nti s')%nat /\ (s_sfctr s <= s_sfctr s')%nat /\
  (forall j y, s_insts s !! j = Some y -> exists y', s_insts s' !! j = Some y' /\ (j <> i -> y' = y) /\ same_flow y y') /\
  (forall u x, s_tis s !! u = Some x -> u <> t -> s_tis s' !! u = Some x) /\
  (forall x, s_tis s !! t = Some x -> exists x', s_tis s' !! t = Some x' /\ ti_inst x' = ti_inst x /\
     ti_task x' = ti_task x /\ ti_sched x' = ti_sched x /\
     ti_rerr x' = ti_rerr x /\ ti_set x' = ti_set x /\ (t_type tk = TBasic -> ti_status x' = ti_status x)) /\
  (exists q, s_queue s' = s_queue s ++ q /\ forall p, p ∈ q -> (s_nti s <= p.2)%nat) /\
  s_step s' = s_step s /\ (e_conc E = false -> s_lock s' = s_lock s) /\
  (exists l, s_log s' = l ++ s_log s /\ forall e, e ∈ l -> frame_ev (s_sfctr s) i tk e).

Lemma quiet_refl E t i tk s : quiet E t i tk s s.
Proof.
  intros H. split_and!; try done; eauto using same_flow_refl.
  - intros x Hx. exists x. by split_and!.
  - exists []. rewrite app_nil_r. split; [done|]. by intros p ?%elem_of_nil.
  - exists []. split; [done|]. by intros p ?%elem_of_nil.
Qed.
Lemma quiet_trans E t i tk a b c : quiet E t i tk a b -> quiet E t i tk b c -> quiet E t i tk a c.
Proof.
  intros H1 H2 Ha. destruct (H1 Ha) as (Ob & N1 & F1 & I1 & T1 & O1 & (q1 & Q1 & Q1') & S1 & L1 & (l1 & E1 & E1')).
  destruct (H2 Ob) as (Oc & N2 & F2 & I2 & T2 & O2 & (q2 & Q2 & Q2') & S2 & L2 & (l2 & E2 & E2')).
  split_and!; [done|lia|lia| | | | |congruence|intros; rewrite L2, L1; done|].
  - intros j y Hy. destruct (I1 j y Hy) as (y1 & Hy1 & A1 & B1). destruct (I2 j y1 Hy1) as (y2 & Hy2 & A2 & B2).
    exists y2. split_and!; [done| |by eapply same_flow_trans]. intros Hj. rewrite (A2 Hj). auto.
  - eauto.
  - intros x Hx. destruct (O1 x Hx) as (x1 & Hx1 & ? & ? & ? & ? & ? & B1). destruct (O2 x1 Hx1) as (x2 & Hx2 & ? & ? & ? & ? & ? & B2).
    exists x2. split_and!; try congruence. intros Hb. rewrite (B2 Hb). auto.
  - exists (q1 ++ q2). split; [by rewrite Q2, Q1, app_assoc|]. intros p [Hp|Hp]%elem_of_app; [auto|].
    specialize (Q2' p Hp). lia.
  - exists (l2 ++ l1). split; [by rewrite E2, E1, app_assoc|]. intros e [He|He]%elem_of_app; [|auto].
    eapply frame_ev_le; [exact F1|auto].
Qed.

(** ** Starting a subflow touches new things only *)
Section New.
  Context (E : env) (n0 k0 i0 : nat) (tk0 : task).
  Local Set Default Proof Using "Type*".

  Definition J (s : st) : Prop := okq s /\ (n0 <= s_nti s)%nat /\
    (forall j y, (k0 < j)%nat -> s_insts s !! j = Some y -> forall id u, i_tasks y !! id = Some u -> (n0 <= u)%nat) /\
    (forall u x, (n0 <= u)%nat -> s_tis s !! u = Some x -> t_from (ti_task x) = [] /\ (k0 < ti_inst x)%nat).
  Definition nw (s s' : st) : Prop :=
    (forall j, (j <= k0)%nat -> s_insts s' !! j = s_insts s !! j) /\
    (forall u, (u < n0)%nat -> s_tis s' !! u = s_tis s !! u) /\
    (exists q, s_queue s' = s_queue s ++ q /\ forall p, p ∈ q -> (n0 <= p.2)%nat) /\
    s_step s' = s_step s /\ s_sfctr s' = s_sfctr s /\ (e_conc E = false -> s_lock s' = s_lock s) /\
    (exists l, s_log s' = l ++ s_log s /\ forall e, e ∈ l -> frame_ev k0 i0 tk0 e).
  Lemma nw_refl s : nw s s.
  Proof.
    split_and!; try done.
    - exists []. rewrite app_nil_r. split; [done|]. by intros p ?%elem_of_nil.
    - exists []. split; [done|]. by intros p ?%elem_of_nil.
  Qed.
  Lemma nw_trans a b c : nw a b -> nw b c -> nw a c.
  Proof.
    intros (I1 & T1 & (q1 & Q1 & Q1') & S1 & F1 & L1 & (l1 & E1 & E1')) (I2 & T2 & (q2 & Q2 & Q2') & S2 & F2 & L2 & (l2 & E2 & E2')).
    split_and!; [| | |congruence|congruence|intros; rewrite L2, L1; done|].
    - intros j Hj. rewrite (I2 j Hj). auto.
    - intros u Hu. rewrite (T2 u Hu). auto.
    - exists (q1 ++ q2). split; [by rewrite Q2, Q1, app_assoc|]. intros p [Hp|Hp]%elem_of_app; auto.
    - exists (l2 ++ l1). split; [by rewrite E2, E1, app_assoc|]. intros e [He|He]%elem_of_app; auto.
  Qed.
  Definition ns {A} (m : M A) : Prop := forall s, J s -> nw s (m s).2 /\ J (m s).2.

  Lemma ns_ret {A} (a : A) : ns (ret a).
  Proof. intros s H. split; [apply nw_refl|done]. Qed.
  Lemma ns_panic {A} e : ns (A:=A) (panic e).
  Proof. intros s H. split; [apply nw_refl|done]. Qed.
  Lemma ns_bind {A B} (m : M A) (k : A -> M B) : ns m -> (forall a, ns (k a)) -> ns (bind m k).
  Proof.
    intros Hm Hk s H. destruct (Hm s H) as [H1 H2]. unfold bind.
    destruct (m s) as [[a| | |]s1]; simpl in *; [|done..].
    destruct (Hk a s1 H2) as [H3 H4]. split; [by eapply nw_trans|done].
  Qed.
  Lemma ns_catch {A} (m : M A) h : ns m -> (forall e, ns (h e)) -> ns (catch m h).
  Proof.
    intros Hm Hh s H. destruct (Hm s H) as [H1 H2]. unfold catch.
    destruct (m s) as [[a|e| |]s1]; simpl in *; [done| |done..].
    destruct (Hh e s1 H2) as [H3 H4]. split; [by eapply nw_trans|done].
  Qed.
  Lemma ns_get_inst {B} j (k : inst -> M B) : (forall y, ns (k y)) -> ns (bind (get_inst j) k).
  Proof.
    intros Hk s H. unfold bind, get_inst, bind, get. destruct (s_insts s !! j); [by apply Hk|].
    split; [apply nw_refl|done].
  Qed.
  Lemma ns_get_ti {B} u (k : tinst -> M B) : (forall x, ns (k x)) -> ns (bind (get_ti u) k).
  Proof.
    intros Hk s H. unfold bind, get_ti, bind, get. destruct (s_tis s !! u); [by apply Hk|].
    split; [apply nw_refl|done].
  Qed.
  Lemma ns_log e : frame_ev k0 i0 tk0 e -> ns (log_ev e).
  Proof.
    intros He s H. unfold log_ev, modify. cbn [snd]. split; [|done]. split_and!; try done.
    - exists []. simpl. rewrite app_nil_r. split; [done|]. by intros p ?%elem_of_nil.
    - exists [e]. split; [done|]. by intros e' ->%elem_of_list_singleton.
  Qed.
  Lemma nw_inst j f s : (k0 < j)%nat -> nw s (set_s_insts (alter f j (s_insts s)) s).
  Proof.
    intros Hj. split_and!; try done.
    - intros j' Hj'. cbn. rewrite lookup_alter_ne by lia. done.
    - exists []. rewrite app_nil_r. split; [done|]. by intros p ?%elem_of_nil.
    - exists []. split; [done|]. by intros p ?%elem_of_nil.
  Qed.
  Lemma J_inst j f s :
    (forall y, s_insts s !! j = Some y -> forall id u, i_tasks (f y) !! id = Some u -> i_tasks y !! id = Some u \/ (n0 <= u)%nat) ->
    J s -> J (set_s_insts (alter f j (s_insts s)) s).
  Proof.
    intros Hf ((O1 & O2) & N & A & B). split_and!; try done.
    - split; [done|]. intros j' Hj'. cbn in *. specialize (O2 j' Hj').
      destruct (decide (j = j')) as [->|]; [by rewrite lookup_alter, O2|by rewrite lookup_alter_ne].
    - intros j' y Hj' Hy id u Hu. cbn in Hy. destruct (decide (j = j')) as [->|].
      + rewrite lookup_alter in Hy. destruct (s_insts s !! j') as [y0|] eqn:Hy0; [|done]. injection Hy as <-.
        destruct (Hf y0 eq_refl id u Hu) as [Hu'|]; [by eapply (A j' y0)|done].
      + rewrite lookup_alter_ne in Hy by done. by eapply A.
  Qed.
  Lemma ns_upd_inst j f : (k0 < j)%nat -> (forall y, i_tasks (f y) = i_tasks y) -> ns (upd_inst j f).
  Proof.
    intros Hj Hf s H. unfold upd_inst, modify. cbn [snd]. split; [by apply nw_inst|].
    apply J_inst; [|done]. intros y Hy id u. rewrite Hf. auto.
  Qed.
  Lemma nw_ti u f s : (n0 <= u)%nat -> nw s (set_s_tis (alter f u (s_tis s)) s).
  Proof.
    intros Hu. split_and!; try done.
    - intros u' Hu'. cbn. rewrite lookup_alter_ne by lia. done.
    - exists []. rewrite app_nil_r. split; [done|]. by intros p ?%elem_of_nil.
    - exists []. split; [done|]. by intros p ?%elem_of_nil.
  Qed.
  Lemma ns_upd_ti u f : (n0 <= u)%nat -> (forall x, ti_inst (f x) = ti_inst x /\ ti_task (f x) = ti_task x) -> ns (upd_ti u f).
  Proof.
    intros Hu Hf s H. unfold upd_ti, modify. cbn [snd]. split; [by apply nw_ti|].
    destruct H as ((O1 & O2) & N & A & B). split_and!; try done.
    - split; [|done]. intros u' Hu'. cbn in *. specialize (O1 u' Hu').
      destruct (decide (u = u')) as [->|]; [by rewrite lookup_alter, O1|by rewrite lookup_alter_ne].
    - intros u' x Hu' Hx. cbn in Hx. destruct (decide (u = u')) as [->|].
      + rewrite lookup_alter in Hx. destruct (s_tis s !! u') as [x0|] eqn:Hx0; [|done]. injection Hx as <-.
        destruct (Hf x0) as [-> ->]. by eapply B.
      + rewrite lookup_alter_ne in Hx by done. by eapply B.
  Qed.
  Lemma ns_set_attrs tr j m : (k0 < j)%nat -> ns (set_attrs tr j m).
  Proof.
    intros Hj. unfold set_attrs. apply ns_get_inst. intros _. apply ns_bind; [by apply ns_upd_inst|].
    intros _. apply ns_log. simpl. auto.
  Qed.
  Lemma ns_return_data j : (k0 < j)%nat -> ns (get_return_data j).
  Proof.
    intros Hj. unfold get_return_data. apply ns_get_inst. intros y. destruct (i_rdata y); [apply ns_ret|].
    destruct (d_md (i_def y)) as [[? []]|]; try apply ns_ret. apply ns_bind; [by apply ns_upd_inst|]. intros; apply ns_ret.
  Qed.
  Lemma ns_active j : (k0 < j)%nat -> ns (set_flow_status E j FActive).
  Proof.
    intros Hj. unfold set_flow_status. apply ns_get_inst. intros _. apply ns_bind; [by apply ns_upd_inst|]. intros _.
    apply ns_bind; [apply ns_log; simpl; auto|]. intros _. unfold post_flow_event. destruct (e_listener E); [|apply ns_ret].
    apply ns_get_inst. intros y. apply ns_bind; [|intros; by apply ns_log].
    destruct (bool_decide _); [apply ns_ret|]. apply ns_bind; [by apply ns_return_data|]. intros; apply ns_ret.
  Qed.
  Lemma ns_tick {B} (k : nat -> M B) : (forall n, ns (k n)) -> ns (bind tick k).
  Proof.
    intros Hk. apply ns_bind; [|done]. intros s H. unfold tick, bind, get, modify, ret. cbn [snd]. split; [|done].
    split_and!; try done.
    - exists []. rewrite app_nil_r. split; [done|]. by intros p ?%elem_of_nil.
    - exists []. split; [done|]. by intros p ?%elem_of_nil.
  Qed.

  (** A leading task is entered: always ready. *)
  Lemma task_status_at u z s x : s_tis s !! u = Some x ->
    set_task_status u z s = (Ok tt, p_tstat u x z s).
  Proof. intros Hx. unfold set_task_status, bind, get_ti, bind, get. by rewrite Hx. Qed.
  Lemma enter_leading u s : J s -> (n0 <= u)%nat ->
    nw s (enter u s).2 /\ J (enter u s).2 /\ forall r, (enter u s).1 = Ok r -> r = EREval.
  Proof.
    intros H Hu. cut (forall q, enter u s = q -> nw s q.2 /\ J q.2 /\ forall r, q.1 = Ok r -> r = EREval); [intros Hc; by apply Hc|].
    intros q Hq. unfold enter, bind at 1 in Hq. destruct (s_tis s !! u) as [x|] eqn:Hx.
    2: { unfold set_task_status, bind, get_ti, bind, get in Hq. rewrite Hx in Hq. subst q. split_and!; [apply nw_refl|done|done]. }
    rewrite (task_status_at _ _ _ _ Hx) in Hq.
    assert (t_from (ti_task x) = [] /\ (k0 < ti_inst x)%nat) as [Hf Hk] by (destruct H as (_ & _ & _ & B); by eapply B).
    assert (forall z s1 x1, s_tis s1 !! u = Some x1 -> ti_inst x1 = ti_inst x -> J s1 ->
              nw s1 (p_tstat u x1 z s1) /\ J (p_tstat u x1 z s1)) as Hst.
    { intros z s1 x1 Hx1 Hxi HJ. destruct (ns_upd_ti u (set_ti_status z) Hu) with (s := s1) as [A1 B1]; [done|done|].
      destruct (ns_log (EvTaskUpd (ti_inst x1) (t_id (ti_task x1)) z)) with (s := p_ti u (set_ti_status z) s1) as [A2 B2]; [simpl; left; congruence|done|].
      split; [by eapply nw_trans|done]. }
    destruct (Hst TEntered s x Hx eq_refl H) as [R1 J1]. set (s1 := p_tstat u x TEntered s) in *.
    assert (s_tis s1 !! u = Some (set_ti_status TEntered x)) as Hx1 by (cbn; by rewrite lookup_alter, Hx).
    assert (from_links u s1 = (Ok [], s1)) as Hfl.
    { unfold from_links, bind, get_ti, bind, get. rewrite Hx1. unfold ret. cbn [ti_task set_ti_status]. by rewrite Hf. }
    assert (get_ti u s1 = (Ok (set_ti_status TEntered x), s1)) as Hg by (unfold get_ti, bind, get; by rewrite Hx1).
    unfold bind at 1 in Hq. rewrite Hfl in Hq. unfold bind at 1 in Hq. rewrite Hg in Hq.
    unfold bind at 1, get_inst, bind at 1, get in Hq. destruct (s_insts s1 !! ti_inst (set_ti_status TEntered x)) as [y|]; [|by subst q].
    unfold ret at 1 in Hq. cbn [scan_links] in Hq. unfold bind in Hq. rewrite (task_status_at _ _ _ _ Hx1) in Hq. unfold ret in Hq. subst q. cbn [fst snd].
    destruct (Hst TReady s1 _ Hx1 eq_refl J1) as [R2 J2]. split_and!; [by eapply nw_trans|done|]. by intros r [= <-].
  Qed.

  Lemma ns_find_or_create j tk s : J s -> (k0 < j)%nat -> t_from tk = [] ->
    nw s (find_or_create_task j tk s).2 /\ J (find_or_create_task j tk s).2 /\
    forall u, (find_or_create_task j tk s).1 = Ok u -> (n0 <= u)%nat.
  Proof.
    intros H Hj Hf. cut (forall q, find_or_create_task j tk s = q -> nw s q.2 /\ J q.2 /\ forall u, q.1 = Ok u -> (n0 <= u)%nat);
      [intros Hc; by apply Hc|]. intros q Hq.
    unfold find_or_create_task, bind at 1, get_inst, bind at 1, get in Hq.
    destruct (s_insts s !! j) as [y|] eqn:Hy; [|subst q; split_and!; [apply nw_refl|done|by intros ? [=]]]. unfold ret at 1 in Hq.
    destruct (i_tasks y !! t_id tk) as [u|] eqn:Hu.
    { subst q. split_and!; [apply nw_refl|done|]. intros u' [= <-]. destruct H as (_ & _ & A & _). by eapply A. }
    unfold new_tinst in Hq. destruct (t_act tk); [|subst q; split_and!; [apply nw_refl|done|by intros ? [=]]].
    assert (nw s (p_tnew j tk s) /\ J (p_tnew j tk s)) as [R1 J1].
    { destruct H as ((O1 & O2) & N & A & B). split.
      - split_and!; try done.
        + intros j' Hj'. cbn. rewrite lookup_alter_ne by lia. done.
        + intros u Hu'. cbn. rewrite lookup_insert_ne by lia. done.
        + exists []. cbn. rewrite app_nil_r. split; [done|]. by intros p ?%elem_of_nil.
        + exists [EvTaskAdd j (t_id tk)]. split; [done|]. by intros e ->%elem_of_list_singleton.
      - split_and!.
        + split; cbn.
          * intros u Hu'. rewrite lookup_insert_ne by lia. apply O1. lia.
          * intros j' Hj'. specialize (O2 j' Hj'). destruct (decide (j = j')) as [->|]; [by rewrite lookup_alter, O2|by rewrite lookup_alter_ne].
        + cbn. lia.
        + cbn. intros j' y' Hj' Hy' id u Hu'. destruct (decide (j = j')) as [->|].
          * rewrite lookup_alter, Hy in Hy'. injection Hy' as <-. cbn in Hu'. destruct (decide (t_id tk = id)) as [<-|].
            { rewrite lookup_insert in Hu'. by injection Hu' as <-. }
            rewrite lookup_insert_ne in Hu' by done. by eapply A.
          * rewrite lookup_alter_ne in Hy' by done. by eapply A.
        + cbn. intros u x Hu' Hx. destruct (decide (s_nti s = u)) as [<-|].
          * rewrite lookup_insert in Hx. by injection Hx as <-.
          * rewrite lookup_insert_ne in Hx by done. by eapply B. }
    unfold bind, get, modify, upd_inst, modify, log_ev, modify, ret in Hq. subst q. cbn [fst snd]. split_and!; [exact R1|exact J1|].
    intros u [= <-]. by destruct H as (_ & N & _).
  Qed.
  Lemma ns_settings u : (n0 <= u)%nat -> ns (apply_settings E u).
  Proof.
    intros Hu. unfold apply_settings. apply ns_get_ti. intros x. destruct (t_set (ti_task x)); [|apply ns_ret].
    apply ns_bind.
    - unfold ext. apply ns_tick. intros n s H. split; [apply nw_refl|done].
    - intros []; [|by apply ns_bind; [by apply ns_upd_ti|intros; apply ns_ret]|apply ns_panic].
      apply ns_bind; [by apply ns_upd_ti|intros; apply ns_ret].
  Qed.
  Lemma ns_schedule u : (n0 <= u)%nat -> ns (schedule_eval u).
  Proof.
    intros Hu s H. unfold schedule_eval, get_ti, bind, get. destruct (s_tis s !! u) as [x|] eqn:Hx; [|by split; [apply nw_refl|done]].
    unfold ret, modify, log_ev, modify. cbn [fst snd]. destruct H as (O & N & A & B). destruct (B u x Hu Hx).
    split; [|by split_and!]. split_and!; try done.
    - eexists. split; [done|]. by intros p ->%elem_of_list_singleton.
    - exists [EvQAdd (S (s_wictr s)) (ti_inst x) (t_id (ti_task x))]. split; [done|]. by intros e ->%elem_of_list_singleton.
  Qed.
  Lemma ns_enter_list skip j es : (k0 < j)%nat -> (forall e, e ∈ es -> t_from e.1 = []) ->
    ns (enter_list E skip j es).
  Proof.
    intros Hj. induction es as [|[tk c] es IH]; intros Hes; cbn [enter_list]; [apply ns_ret|].
    specialize (IH (fun e He => Hes e (elem_of_list_further _ _ _ He))).
    assert (t_from tk = []) as Hf by (apply (Hes (tk, c)); apply elem_of_list_here).
    intros s H. destruct (ns_find_or_create j tk s H Hj Hf) as (R1 & J1 & U1). unfold bind.
    destruct (find_or_create_task j tk s) as [[u| | |] s1]; cbn [fst snd] in *; [|done..]. specialize (U1 u eq_refl).
    assert (forall m : M (option err), ns m -> nw s (m s1).2 /\ J (m s1).2) as Hlift.
    { intros m Hm. destruct (Hm s1 J1). split; [by eapply nw_trans|done]. }
    change (nw s (bind (get_ti u) (fun x => if e_conc E && ti_sched x then enter_list E skip j es else
      bind (enter u) (fun er => match er with
        | EREval => bind (apply_settings E u) (fun m => match m with Some e => ret (Some e) | None =>
            upd_ti u (set_ti_sched true) ;; schedule_eval u ;; enter_list E skip j es end)
        | ERSkip => skip u ;; enter_list E skip j es
        | ERNotReady => enter_list E skip j es end)) s1).2 /\ J (bind (get_ti u) (fun x => if e_conc E && ti_sched x then enter_list E skip j es else
      bind (enter u) (fun er => match er with
        | EREval => bind (apply_settings E u) (fun m => match m with Some e => ret (Some e) | None =>
            upd_ti u (set_ti_sched true) ;; schedule_eval u ;; enter_list E skip j es end)
        | ERSkip => skip u ;; enter_list E skip j es
        | ERNotReady => enter_list E skip j es end)) s1).2).
    apply Hlift. apply ns_get_ti. intros x. destruct (e_conc E && ti_sched x); [exact IH|].
    set (rest := bind (apply_settings E u) _).
    assert (ns rest) as Hrest.
    { unfold rest. apply ns_bind; [by apply ns_settings|]. intros [e|]; [apply ns_ret|].
      apply ns_bind; [by apply ns_upd_ti|]. intros _. apply ns_bind; [by apply ns_schedule|]. intros _. exact IH. }
    clearbody rest. intros s2 J2. destruct (enter_leading u s2 J2 U1) as (R3 & J3 & U3). unfold bind at 1 3.
    destruct (enter u s2) as [[r| | |] s3]; cbn [fst snd] in *; [|done..]. rewrite (U3 r eq_refl).
    destruct (Hrest s3 J3). split; [by eapply nw_trans|done].
  Qed.
  Lemma ns_get {A} (k : st -> M A) : (forall s, J s -> nw s (k s s).2 /\ J (k s s).2) -> ns (bind get k).
  Proof. intros Hk s H. exact (Hk s H). Qed.
  Lemma ns_lock {A} (m : M A) : ns m -> ns (with_lock E m).
  Proof.
    intros Hm. unfold with_lock. destruct (e_conc E) eqn:Hc; [|done].
    assert (forall b, ns (modify (set_s_lock b))) as Hl.
    { intros b s H. unfold modify. cbn [snd]. split; [|done]. split_and!; try done.
      - exists []. rewrite app_nil_r. split; [done|]. by intros p ?%elem_of_nil.
      - by rewrite Hc.
      - exists []. split; [done|]. by intros p ?%elem_of_nil. }
    apply ns_get. intros s H. destruct (s_lock s); [by split; [apply nw_refl|done]|]. revert s H.
    change (ns (modify (set_s_lock true) ;; finally m (modify (set_s_lock false)))). apply ns_bind; [apply Hl|].
    intros _. unfold finally. apply ns_bind.
    - apply ns_catch; [apply ns_bind; [done|intros; apply ns_ret]|intros; apply ns_ret].
    - intros r. apply ns_bind; [apply Hl|]. intros _. destruct r; [apply ns_panic|apply ns_ret].
  Qed.
  Lemma ns_enter_top j es : (k0 < j)%nat -> (forall e, e ∈ es -> t_from e.1 = []) -> ns (enter_top E j es).
  Proof.
    intros Hj Hes. unfold enter_top. apply ns_get_inst. intros y. cbn [enter_tasks]. apply ns_lock.
    by apply ns_enter_list.
  Qed.
  Lemma start_entries_leading ts e : e ∈ start_entries ts -> t_from e.1 = [].
  Proof.
    unfold start_entries. intros (tk & -> & Hin)%elem_of_list_fmap. cbn [fst].
    apply elem_of_list_In, filter_In in Hin as [_ Hl]. unfold leading in Hl. by destruct (t_from tk).
  Qed.
  Lemma ns_start_instance j attrs : (k0 < j)%nat -> ns (start_instance E j attrs).
  Proof.
    intros Hj. unfold start_instance. apply ns_get_inst. intros y. apply ns_bind.
    { unfold parent_info, host_of. apply ns_bind; [apply ns_get_inst; intros; apply ns_ret|].
      intros [ht|]; [|apply ns_ret]. apply ns_get_ti. intros x. apply ns_get_inst. intros; apply ns_ret. }
    intros h. apply ns_bind; [by apply ns_set_attrs|]. intros _. apply ns_bind.
    { destruct (d_md (i_def y)); [by apply ns_set_attrs|apply ns_ret]. }
    intros _. apply ns_bind; [by apply ns_set_attrs|]. intros _. apply ns_bind; [by apply ns_active|]. intros _.
    apply ns_bind; [|intros; apply ns_ret]. apply ns_enter_top; [done|]. intros e. apply start_entries_leading.
  Qed.
End New.

(** ** The relation [quiet] holds across every evaluation *)
Lemma quiet_same E t i tk s s' :
  s_insts s' = s_insts s -> s_tis s' = s_tis s -> s_nti s' = s_nti s -> s_sfctr s' = s_sfctr s -> s_queue s' = s_queue s ->
  s_step s' = s_step s -> s_lock s' = s_lock s ->
  (exists l, s_log s' = l ++ s_log s /\ forall e, e ∈ l -> frame_ev (s_sfctr s) i tk e) -> quiet E t i tk s s'.
Proof.
  intros Hi Ht Hn Hf Hq Hs Hl Hlog [O1 O2]. split_and!; try (by rewrite ?Hn, ?Hf).
  - split; by rewrite ?Hn, ?Ht, ?Hf, ?Hi.
  - rewrite Hi. intros j y Hy. eauto using same_flow_refl.
  - by rewrite Ht.
  - rewrite Ht. intros x Hx. exists x. by split_and!.
  - exists []. rewrite app_nil_r. split; [done|]. by intros p ?%elem_of_nil.
Qed.
Lemma quiet_log E t i tk e s : frame_ev (s_sfctr s) i tk e -> quiet E t i tk s (p_log e s).
Proof.
  intros He. apply quiet_same; try done. exists [e]. split; [done|]. by intros e' ->%elem_of_list_singleton.
Qed.
Lemma quiet_ti E t i tk f s :
  (forall x, ti_inst (f x) = ti_inst x /\ ti_task (f x) = ti_task x /\ ti_sched (f x) = ti_sched x /\
     ti_rerr (f x) = ti_rerr x /\ ti_set (f x) = ti_set x /\ (t_type tk = TBasic -> ti_status (f x) = ti_status x)) ->
  quiet E t i tk s (p_ti t f s).
Proof.
  intros Hf [O1 O2]. split_and!; try done.
  - split; [|done]. intros u Hu. cbn in *. specialize (O1 u Hu).
    destruct (decide (t = u)) as [->|]; [by rewrite lookup_alter, O1|by rewrite lookup_alter_ne].
  - intros j y Hy. eauto using same_flow_refl.
  - intros u x Hx Hu. cbn. by rewrite lookup_alter_ne.
  - intros x Hx. cbn. rewrite lookup_alter, Hx. exists (f x). split; [done|]. apply Hf.
  - exists []. rewrite app_nil_r. split; [done|]. by intros p ?%elem_of_nil.
  - exists []. split; [done|]. by intros p ?%elem_of_nil.
Qed.
Lemma quiet_inst E t i tk f s : (forall y, same_flow y (f y)) -> quiet E t i tk s (p_inst i f s).
Proof.
  intros Hf [O1 O2]. split_and!; try done.
  - split; [done|]. intros j Hj. cbn in *. specialize (O2 j Hj).
    destruct (decide (i = j)) as [->|]; [by rewrite lookup_alter, O2|by rewrite lookup_alter_ne].
  - intros j y Hy. cbn. destruct (decide (i = j)) as [->|].
    + rewrite lookup_alter, Hy. exists (f y). split_and!; [done|done|apply Hf].
    + rewrite lookup_alter_ne by done. eauto using same_flow_refl.
  - intros x Hx. exists x. by split_and!.
  - exists []. rewrite app_nil_r. split; [done|]. by intros p ?%elem_of_nil.
  - exists []. split; [done|]. by intros p ?%elem_of_nil.
Qed.
Lemma ti_is_quiet E t i tk s s' : okq s -> ti_is s t i tk -> quiet E t i tk s s' -> ti_is s' t i tk.
Proof.
  intros Ho (x & Hx & Hi & Ht) Hq. destruct (Hq Ho) as (_ & _ & _ & _ & _ & O & _).
  destruct (O x Hx) as (x' & Hx' & E1 & E2 & _). exists x'. split_and!; congruence.
Qed.
(** Parts of starting a subflow. *)
Lemma quiet_sub_own E t i tk uri ins s : okq s -> ti_is s t i tk ->
  quiet E t i tk s (start_subflow E t uri ins s).2 /\ s_tis (start_subflow E t uri ins s).2 !! t = s_tis s !! t /\
  (forall j, (j <= s_sfctr s)%nat -> s_insts (start_subflow E t uri ins s).2 !! j = s_insts s !! j).
Proof.
  set (own := fun s s' : st => s_tis s' !! t = s_tis s !! t /\ (forall j, (j <= s_sfctr s)%nat -> s_insts s' !! j = s_insts s !! j)).
  intros Ho Hti. cut (forall q, start_subflow E t uri ins s = q -> quiet E t i tk s q.2 /\ own s q.2); [intros Hc; by eapply Hc|].
  assert (forall a b c, okq a -> quiet E t i tk a b /\ own a b -> quiet E t i tk b c /\ own b c -> quiet E t i tk a c /\ own a c) as Htr.
  { intros a b c Oa [Q1 [T1 I1]] [Q2 [T2 I2]]. split; [by eapply quiet_trans|]. split; [congruence|]. intros j Hj.
    destruct (Q1 Oa) as (_ & _ & Hs & _). rewrite I2 by lia. auto. }
  intros q Hq. unfold start_subflow, tick, bind at 1, bind at 1, get, bind at 1, modify, ret at 1 in Hq.
  set (s0 := set_s_tick (S (s_tick s)) s) in *.
  assert (quiet E t i tk s s0 /\ own s s0) as Q0.
  { split; [|done]. apply quiet_same; try done. exists []. split; [done|]. by intros p ?%elem_of_nil. }
  destruct (e_def E (s_tick s) uri) as [d| |e]; [|by subst q..].
  assert (ti_is s0 t i tk) as H0 by done. assert (okq s0) as Ho0 by done.
  eapply Htr; [done|exact Q0|]. clearbody s0. clear s Q0 Ho Hti.
  unfold new_embedded, bind at 1, bind at 1, get, bind at 1 in Hq. destruct H0 as (x & Hx & Hi & Ht).
  unfold get_ti, bind at 1, get in Hq. rewrite Hx in Hq. unfold ret at 1 in Hq.
  unfold bind at 1, modify, bind at 1, log_ev, modify, ret at 1 in Hq.
  change (set_s_log _ _) with (p_sub t x uri d s0) in Hq. set (s1 := p_sub t x uri d s0) in *.
  set (k := S (s_sfctr s0)) in *.
  assert (J (s_nti s0) (s_sfctr s0) s1) as J1.
  { destruct Ho0 as [O1 O2]. split_and!.
    - split; [done|]. intros j Hj. unfold s1, p_sub in *. cbn in *. rewrite lookup_insert_ne by lia. apply O2. lia.
    - done.
    - intros j y Hj Hy id u Hu. unfold s1, p_sub in Hy. cbn in Hy. destruct (decide (j = S (s_sfctr s0))) as [->|Hne].
      + rewrite lookup_insert in Hy. injection Hy as <-. cbn [i_tasks] in Hu. by rewrite lookup_empty in Hu.
      + rewrite lookup_insert_ne in Hy by done. by rewrite O2 in Hy.
    - intros u x' Hu Hx'. unfold s1, p_sub in Hx'. cbn in Hx'. by rewrite O1 in Hx'. }
  destruct (ns_start_instance E (s_nti s0) (s_sfctr s0) i tk k ins (Nat.lt_succ_diag_r _) s1 J1) as [R2 J2].
  assert (forall s2, nw E (s_nti s0) (s_sfctr s0) i tk s1 s2 -> J (s_nti s0) (s_sfctr s0) s2 -> quiet E t i tk s0 s2 /\ own s0 s2) as Hlift.
  { intros s2 (NI & NT & (q2 & NQ & NQ') & NS & NF & NL & (l2 & NG & NG')) (OJ & NJ & _).
    assert (s_sfctr s1 = k) as Hk by done.
    assert (t < s_nti s0)%nat as Hlt.
    { destruct (decide (t < s_nti s0)%nat); [done|]. destruct Ho0 as [O1 _]. rewrite O1 in Hx by lia. done. }
    split; [intros _; split_and!|split].
    - done.
    - done.
    - rewrite NF, Hk. lia.
    - intros j y Hy. exists y. assert (j <= s_sfctr s0)%nat.
      { destruct (decide (j <= s_sfctr s0)%nat); [done|]. destruct Ho0 as [_ O2]. rewrite O2 in Hy by lia. done. }
      split_and!; [|done|apply same_flow_refl]. rewrite NI by lia. unfold s1, p_sub. cbn. rewrite lookup_insert_ne by lia. done.
    - intros u x' Hx' _. rewrite NT; [done|]. destruct (decide (u < s_nti s0)%nat); [done|].
      destruct Ho0 as [O1 _]. rewrite O1 in Hx' by lia. done.
    - intros x' Hx'. exists x'. rewrite NT by done. by split_and!.
    - exists q2. done.
    - done.
    - done.
    - exists (l2 ++ [EvSubCreated k uri (ti_inst x) (t_id (ti_task x))]). split; [rewrite NG, <- app_assoc; done|].
      intros e [He|He]%elem_of_app; [by apply NG'|]. apply elem_of_list_singleton in He as ->. simpl. split_and!; [lia|done|by rewrite Ht].
    - by apply NT.
    - intros j Hj. rewrite NI by lia. unfold s1, p_sub. cbn. rewrite lookup_insert_ne by lia. done. }
  unfold bind at 1 in Hq. destruct (start_instance E k ins s1) as [[[]| | |] s2]; cbn [fst snd] in *; [|subst q; by apply Hlift..].
  specialize (Hlift s2 R2 J2). unfold bind at 1 in Hq. destruct (e_icpt E) as [c|]; [|by subst q].
  assert (exists x2, s_tis s2 !! t = Some x2 /\ ti_inst x2 = i /\ ti_task x2 = tk) as (x2 & Hx2 & Hi2 & Ht2).
  { apply (ti_is_quiet E t i tk s0 s2); [done|by exists x|apply Hlift]. }
  unfold bind at 1, get_ti, bind at 1, get in Hq. rewrite Hx2 in Hq. unfold ret at 1 in Hq. unfold need_cov in Hq.
  destruct (ic_cov c); [|by subst q]. unfold log_ev, modify, ret in Hq. subst q. cbn [snd].
  eapply Htr; [done|exact Hlift|]. split; [by apply (quiet_log E t i tk (EvCov _ _))|done].
Qed.
Lemma quiet_sub E t i tk uri ins s : okq s -> ti_is s t i tk -> quiet E t i tk s (start_subflow E t uri ins s).2.
Proof. intros. by apply quiet_sub_own. Qed.

Lemma quiet_leaves E t i tk : leaves E t i tk (quiet E t i tk).
Proof.
  constructor; constructor.
  - apply quiet_refl.
  - apply quiet_trans.
  - intros s H. apply quiet_same; try done. exists []. split; [done|]. by intros p ?%elem_of_nil.
  - intros e s H He. apply quiet_log. destruct e; simpl in *; intuition.
  - intros m s H Hi _. eapply quiet_trans; [apply (quiet_inst E t i tk (fun x => set_i_attrs (m ∪ i_attrs x) x)); by intros|].
    apply quiet_log. simpl. auto.
  - intros f s H Hf _. apply quiet_ti. intros x. destruct (Hf x) as (? & ? & ? & ? & ? & ?). by split_and!.
  - intros v s H Hi. eapply quiet_trans; [apply (quiet_inst E t i tk (fun x => set_i_attrs ({[ "_A." +:+ t_id tk := v ]} ∪ i_attrs x) x)); by intros|].
    apply quiet_log. simpl. auto.
  - intros d e s H. unfold reply, bind, get_inst, bind, get. destruct (s_insts s !! i) as [y|]; [|apply quiet_refl].
    unfold ret at 1. destruct (i_handler y); [|apply quiet_refl]. unfold upd_inst, modify, log_ev, modify. cbn [snd].
    eapply quiet_trans; [by apply (quiet_inst E t i tk (set_i_rdata d)); intros|]. by apply (quiet_log E t i tk (EvResult d e)).
  - intros d e s H. unfold return_, upd_inst, log_ev, modify, bind. cbn [snd].
    eapply quiet_trans; [by apply (quiet_inst E t i tk (fun x => set_i_force true (set_i_rdata d (set_i_rerr e x)))); intros|].
    by apply (quiet_log E t i tk (EvReturn i d e)).
  - intros uri ins s [H Ho] _. pose proof (quiet_sub E t i tk uri ins s Ho H) as Hq. split; [done|].
    split; [by eapply ti_is_quiet|by destruct (Hq Ho)].
  - intros n v s H Hi _. eapply quiet_trans; [apply (quiet_inst E t i tk (fun x => set_i_attrs ({[ n := v ]} ∪ i_attrs x) x)); by intros|].
    apply quiet_log. simpl. auto.
  - intros ins it s x H Hx Hin Hit. by apply quiet_log.
  - intros e s H. by apply quiet_log.
  - intros e s H He. apply quiet_log. destruct e; simpl in *; intuition.
  - intros k w s H. apply quiet_ti. intros x. by split_and!.
  - intros s x z [(x' & Hx' & Hi & Ht) _] Hx Hz Hb. rewrite Hx in Hx'. injection Hx' as <-.
    eapply quiet_trans; [apply (quiet_ti E t i tk (set_ti_status z)); intros; by split_and!|].
    apply quiet_log. simpl. right. split_and!; [done|by rewrite Ht|done].
Qed.

(** An evaluation is quiet. *)
Lemma eval_quiet E t i tk s : ti_is s t i tk -> okq s -> quiet E t i tk s (beh_eval E (t_type tk) t s).2.
Proof. intros H Ho. by apply (rq_beh_eval E t i tk _ (quiet_leaves E t i tk)). Qed.
Lemma post_quiet E t i tk s : ti_is s t i tk -> okq s -> quiet E t i tk s (beh_post E (t_type tk) t s).2.
Proof. intros H Ho. by apply (rq_beh_post E t i tk _ (quiet_leaves E t i tk)). Qed.
