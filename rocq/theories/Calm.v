(** No panic gets out of a step. No Go counterpart (proof infrastructure). *)
From Verif Require Export SpecCalm Bound Subflows.
Local Open Scope Z_scope.

Section Np.
  (** [m] does not panic and the states it ends in satisfy [Q]. *)
  Definition np {A} (m : M A) (s : st) (Q : A -> st -> Prop) : Prop :=
    (forall e, (m s).1 <> Panic e) /\ forall a s1, m s = (Ok a, s1) -> Q a s1.
  Lemma np_ret {A} (a : A) s (Q : A -> st -> Prop) : Q a s -> np (ret a) s Q.
  Proof. intros H. split; [done|]. by intros ? ? [= <- <-]. Qed.
  Lemma np_bind {A B} (m : M A) (k : A -> M B) s Q : np m s (fun a s1 => np (k a) s1 Q) -> np (bind m k) s Q.
  Proof.
    intros [H1 H2]. unfold np, bind. destruct (m s) as [[a|e| |] s1]; [by apply H2|by destruct (H1 e)|split; [done|by intros ? ?]..].
  Qed.
  Lemma np_mono {A} (m : M A) s (Q Q' : A -> st -> Prop) : np m s Q -> (forall a s1, Q a s1 -> Q' a s1) -> np m s Q'.
  Proof. intros [H1 H2] H. split; auto. Qed.
  Lemma np_modify f s (Q : unit -> st -> Prop) : Q tt (f s) -> np (modify f) s Q.
  Proof. intros H. split; [done|]. by intros [] ? [= <-]. Qed.
  Lemma np_get s (Q : st -> st -> Prop) : Q s s -> np get s Q.
  Proof. intros H. split; [done|]. by intros ? ? [= <- <-]. Qed.
  Lemma np_ti {B} t x (k : tinst -> M B) s Q : s_tis s !! t = Some x -> np (k x) s Q -> np (bind (get_ti t) k) s Q.
  Proof. intros Hx H. unfold np. by rewrite (eval_get_ti _ _ _ _ Hx). Qed.
  Lemma np_inst {B} i y (k : inst -> M B) s Q : s_insts s !! i = Some y -> np (k y) s Q -> np (bind (get_inst i) k) s Q.
  Proof. intros Hy H. unfold np. by rewrite (eval_get_inst _ _ _ _ Hy). Qed.
  Lemma np_with_lock E (m : M (option err)) s (Q : option err -> st -> Prop) :
    (forall b l, Q b l -> Q b (set_s_lock false l)) -> np m (if e_conc E then set_s_lock true s else s) Q -> np (with_lock E m) s Q.
  Proof.
    intros Hl [H1 H2]. unfold with_lock. destruct (e_conc E); [|done]. apply np_bind, np_get. destruct (s_lock s); [split; [done|by intros ? ?]|].
    apply np_bind, np_modify. unfold finally. apply np_bind. unfold catch. unfold bind at 1.
    split.
    - unfold bind. destruct (m (set_s_lock true s)) as [[a|e| |] s1]; [done|by destruct (H1 e)|done..].
    - unfold bind at 1. destruct (m (set_s_lock true s)) as [[a|e| |] s1]; [|by destruct (H1 e)|by intros ? ?..].
      intros ? ? [= <- <-]. apply np_bind, np_modify. apply np_ret. by apply Hl, H2.
  Qed.
  Lemma np_finally {A} (m : M A) f s (Q R : A -> st -> Prop) : np m s R -> (forall a s1, R a s1 -> np f s1 (fun _ s2 => Q a s2)) -> np (finally m f) s Q.
  Proof.
    intros [H1 H2] Hf. unfold finally. apply np_bind. unfold catch. split.
    - unfold bind. destruct (m s) as [[a|e| |] s1]; [done|by destruct (H1 e)|done..].
    - intros r s2. unfold bind at 1. destruct (m s) as [[a|e| |] s1] eqn:Hm; [|by destruct (H1 e)|by intros ?..].
      unfold ret at 1. intros [= <- <-]. apply np_bind. eapply np_mono; [apply Hf; by apply H2|]. intros u0 s3 H3. by apply np_ret.
  Qed.
End Np.

Section Calm.
  Context (E : env) (d' : defn) (i : nat) (t hst : option nat).
  (** Nothing the handling of a panic in flow [i] refers to is missing. *)
  Definition whole (s : st) : Prop := (forall u, (s_nti s <= u)%nat -> s_tis s !! u = None) /\ is_Some (s_insts s !! 0%nat) /\ (forall u, t = Some u -> is_Some (s_tis s !! u)) /\ (forall h, hst = Some h -> is_Some (s_tis s !! h)) /\
    exists y, s_insts s !! i = Some y /\ i_def y = d' /\ i_host y = hst /\
      forall id u, i_tasks y !! id = Some u -> exists x, s_tis s !! u = Some x /\ ti_inst x = i /\ t_id (ti_task x) = id /\ ti_task x ∈ all_tasks d'.
  Lemma whole_same s s' : s_insts s' = s_insts s -> s_tis s' = s_tis s -> s_nti s' = s_nti s -> whole s -> whole s'.
  Proof. intros H1 H2 H3. unfold whole. by rewrite H1, H2, H3. Qed.
  Lemma is_some_alter {K} `{Countable K} {A} (f : A -> A) (k j : K) (m : gmap K A) : is_Some (m !! j) -> is_Some (alter f k m !! j).
  Proof. intros [a Ha]. destruct (decide (k = j)) as [->|]; [rewrite lookup_alter, Ha|rewrite lookup_alter_ne by done]; eauto. Qed.
  Lemma whole_ti u f s : (forall x, ti_inst (f x) = ti_inst x) -> (forall x, ti_task (f x) = ti_task x) -> whole s -> whole (set_s_tis (alter f u (s_tis s)) s).
  Proof.
    intros F' F (Wn & W0 & Wt & Wh & y & Hy & Hd & Hh & Htab). split_and!; cbn; [|done|intros; apply is_some_alter; auto..|].
    { intros v Hv. destruct (decide (u = v)) as [->|]; [by rewrite lookup_alter, Wn|rewrite lookup_alter_ne by done; auto]. }
    exists y. split_and!; try done. intros id v Hv. destruct (Htab _ _ Hv) as (x & Hx & Hi & Hid & Hin). destruct (decide (u = v)) as [->|].
    - rewrite lookup_alter, Hx. eexists. split; [done|]. by rewrite F, F'.
    - rewrite lookup_alter_ne by done. eauto.
  Qed.
  Lemma whole_inst j f s : (forall y, i_def (f y) = i_def y) -> (forall y, i_host (f y) = i_host y) ->
    (forall y id u, i_tasks (f y) !! id = Some u -> i_tasks y !! id = Some u) -> whole s -> whole (set_s_insts (alter f j (s_insts s)) s).
  Proof.
    intros F1 F2 F3 (Wn & W0 & Wt & Wh & y & Hy & Hd & Hh & Htab). split_and!; cbn; [done|by apply is_some_alter|done..|].
    destruct (decide (j = i)) as [->|]; [rewrite lookup_alter, Hy|rewrite lookup_alter_ne by done; eauto].
    eexists. split; [done|]. rewrite F1, F2. split_and!; try done. intros id u Hu. eapply Htab, F3, Hu.
  Qed.
  Definition nw {A} (m : M A) : Prop := forall s, whole s -> np m s (fun _ s' => whole s').
  Lemma nw_ret {A} (a : A) : nw (ret a).
  Proof. intros s W. by apply np_ret. Qed.
  Lemma nw_bind {A B} (m : M A) (k : A -> M B) : nw m -> (forall a, nw (k a)) -> nw (bind m k).
  Proof. intros Hm Hk s W. apply np_bind. eapply np_mono; [by apply Hm|]. intros a s1 W1. by apply Hk. Qed.
  Lemma nw_log e : nw (log_ev e).
  Proof. intros s W. apply np_modify. by eapply whole_same; [..|exact W]. Qed.
  Lemma nw_upd_ti u f : (forall x, ti_inst (f x) = ti_inst x) -> (forall x, ti_task (f x) = ti_task x) -> nw (upd_ti u f).
  Proof. intros F' F s W. apply np_modify. by apply whole_ti. Qed.
  Lemma nw_upd_inst j f : (forall y, i_def (f y) = i_def y) -> (forall y, i_host (f y) = i_host y) ->
    (forall y id u, i_tasks (f y) !! id = Some u -> i_tasks y !! id = Some u) -> nw (upd_inst j f).
  Proof. intros F1 F2 F3 s W. apply np_modify. by apply whole_inst. Qed.
  Lemma nw_inst {B} (k : inst -> M B) : (forall y, i_def y = d' -> i_host y = hst -> nw (k y)) -> nw (bind (get_inst i) k).
  Proof. intros H s W. pose proof W as (_ & _ & _ & _ & y & Hy & Hd & Hh & _). eapply np_inst; [exact Hy|]. by apply H. Qed.
  Lemma nw_inst0 {B} (k : inst -> M B) : (forall y, nw (k y)) -> nw (bind (get_inst 0) k).
  Proof. intros H s W. pose proof W as (_ & [y Hy] & _). eapply np_inst; [exact Hy|]. by apply H. Qed.
  Lemma nw_ti {B} u (k : tinst -> M B) : t = Some u \/ hst = Some u -> (forall x, nw (k x)) -> nw (bind (get_ti u) k).
  Proof.
    intros Hu H s W. pose proof W as (_ & _ & Wt & Wh & _). assert (is_Some (s_tis s !! u)) as [x Hx] by (destruct Hu as [Hu|Hu]; auto).
    eapply np_ti; [exact Hx|]. by apply H.
  Qed.
  Lemma nw_schedule u : t = Some u \/ hst = Some u -> nw (schedule_eval u).
  Proof.
    intros Hu. apply nw_ti; [done|]. intros x. apply nw_bind; [intros s W; by apply np_get|]. intros s0. apply nw_bind; [|intros _; apply nw_log].
    intros s W. apply np_modify. by eapply whole_same; [..|exact W].
  Qed.
  Lemma nw_set_attrs b m : nw (set_attrs b i m).
  Proof. apply nw_inst. intros y _ _. apply nw_bind; [by apply nw_upd_inst|]. intros _. apply nw_log. Qed.
  Lemma nw_flow_status z : nw (set_flow_status E i z).
  Proof.
    apply nw_inst. intros y _ _. apply nw_bind; [by apply nw_upd_inst|]. intros _. apply nw_bind; [apply nw_log|]. intros _.
    unfold post_flow_event. destruct (e_listener E); [|apply nw_ret]. apply nw_inst. intros y' _ _. apply nw_bind; [|intros od; apply nw_log].
    destruct (bool_decide _); [apply nw_ret|]. apply nw_bind; [|intros r; apply nw_ret]. apply nw_inst. intros y2 _ _.
    destruct (i_rdata y2); [apply nw_ret|]. destruct (d_md (i_def y2)) as [[mi [mo|]]|]; [|apply nw_ret..]. cbv zeta.
    apply nw_bind; [by apply nw_upd_inst|intros _; apply nw_ret].
  Qed.
  Lemma nw_record : SpecSub.recordable E -> nw (record_state E).
  Proof.
    intros (m & Hm & H) s W. unfold record_state. rewrite Hm. revert s W. change (nw (bind (if record_snapshot m then
        if e_ext E then bind get (fun s => log_ev (EvSnapshot (take_snapshot s))) else panic "nil recorder" else ret tt)
      (fun _ => if record_steps m then if e_ext E then log_ev EvStep else panic "nil step" else ret tt))).
    destruct H as [->|[-> ->]].
    - apply nw_bind; [destruct (record_snapshot m); [|apply nw_ret]; apply nw_bind; [intros s W; by apply np_get|intros; apply nw_log]|].
      intros _. destruct (record_steps m); [apply nw_log|apply nw_ret].
    - apply nw_bind; [apply nw_ret|intros _; apply nw_ret].
  Qed.

  (** *** The error handler is started *)
  Context (Calm : settings_calm E).
  Local Set Default Proof Using "Type*".

  Lemma np_find tk s : whole s -> tk ∈ all_tasks d' -> t_act tk <> None -> NoDup (t_id <$> all_tasks d') ->
    np (find_or_create_task i tk) s (fun u s' => whole s' /\ exists x, s_tis s' !! u = Some x /\ ti_inst x = i /\ ti_task x = tk).
  Proof.
    intros W Hin Ha Hnd. pose proof W as (Wn & W0 & Wt & Wh & y & Hy & Hd & Hh & Htab). unfold find_or_create_task. eapply np_inst; [exact Hy|].
    destruct (i_tasks y !! t_id tk) as [u|] eqn:Hu.
    - apply np_ret. split; [done|]. destruct (Htab _ _ Hu) as (x & Hx & Hxi & Hid & Hin'). exists x. split; [done|]. split; [done|].
      apply elem_of_list_lookup in Hin' as (m1 & M1). apply elem_of_list_lookup in Hin as (m2 & M2).
      assert (m1 = m2) as -> by (eapply (NoDup_lookup (t_id <$> all_tasks d')); [done|by rewrite list_lookup_fmap, M1|rewrite list_lookup_fmap, M2; cbn; by f_equal]).
      congruence.
    - unfold new_tinst. destruct (t_act tk) as [ac|]; [|done]. apply np_bind, np_bind, np_get, np_bind, np_modify, np_ret, np_bind, np_modify, np_bind, np_modify, np_ret.
      set (x0 := mk_tinst _ _ _ _ _ _ _ _ _). assert (Hx0 : ti_task x0 = tk) by done. assert (Hi0 : ti_inst x0 = i) by done. clearbody x0.
      assert (Hk : forall u z, s_tis s !! u = Some z -> <[s_nti s:=x0]> (s_tis s) !! u = Some z).
      { intros u z Hz. rewrite lookup_insert_ne; [done|]. intros <-. rewrite Wn in Hz by lia. done. }
      split; [|exists x0; cbn; by rewrite lookup_insert]. split_and!; cbn.
      + intros u Hu'. rewrite lookup_insert_ne by lia. apply Wn. lia.
      + by apply is_some_alter.
      + intros h Hh'. destruct (Wt h Hh') as [z Hz]. eauto.
      + intros h Hh'. destruct (Wh h Hh') as [z Hz]. eauto.
      + rewrite lookup_alter, Hy. eexists. split; [done|]. split; [done|]. split; [done|]. cbn. intros id u Hid.
        destruct (decide (t_id tk = id)) as [<-|Hn].
        * rewrite lookup_insert in Hid. injection Hid as <-. exists x0. rewrite lookup_insert, Hx0. done.
        * rewrite lookup_insert_ne in Hid by done. destruct (Htab _ _ Hid) as (x & Hx & H). exists x. split; [by apply Hk|done].
  Qed.
  Lemma np_status u x z s (Q : unit -> st -> Prop) : whole s -> s_tis s !! u = Some x ->
    (forall s', whole s' -> s_tis s' !! u = Some (set_ti_status z x) -> Q tt s') -> np (set_task_status u z) s Q.
  Proof.
    intros W Hx H. unfold set_task_status. eapply np_ti; [exact Hx|]. apply np_bind, np_modify, np_modify. apply H.
    - eapply whole_same; [done..|]. by apply (whole_ti u).
    - cbn. by rewrite lookup_alter, Hx.
  Qed.
  Lemma np_enter u x s : whole s -> s_tis s !! u = Some x -> ti_inst x = i -> t_from (ti_task x) = [] ->
    np (enter u) s (fun r s' => r = EREval /\ whole s' /\ exists x', s_tis s' !! u = Some x').
  Proof.
    intros W Hx Hi Hf. unfold enter. apply np_bind. eapply np_status; [done|exact Hx|]. intros s1 W1 Hx1.
    apply np_bind. unfold from_links. eapply np_ti; [exact Hx1|]. cbn [ti_task set_ti_status]. rewrite Hf. cbn [iterM]. apply np_bind, np_ret, np_ret.
    eapply np_ti; [exact Hx1|]. cbn [ti_inst set_ti_status]. rewrite Hi. pose proof W1 as (_ & _ & _ & _ & y & Hy & _). eapply np_inst; [exact Hy|]. cbn [scan_links].
    apply np_bind. eapply np_status; [done|exact Hx1|]. intros s2 W2 Hx2. apply np_ret. split; [done|]. split; [done|]. eauto.
  Qed.
  Lemma np_settings u x s : whole s -> s_tis s !! u = Some x -> np (apply_settings E u) s (fun _ s' => whole s' /\ exists x', s_tis s' !! u = Some x').
  Proof.
    intros W Hx. unfold apply_settings. eapply np_ti; [exact Hx|]. destruct (t_set (ti_task x)); [|apply np_ret; split; [done|eauto]].
    apply np_bind. unfold ext. apply np_bind. unfold tick. apply np_bind, np_get, np_bind, np_modify, np_ret, np_bind, np_get, np_ret.
    set (s1 := set_s_tick _ s). assert (W1 : whole s1) by (by eapply whole_same; [..|exact W]). assert (Hx1 : s_tis s1 !! u = Some x) by done.
    pose proof (Calm (s_tick s) (view_of s1 u)) as C. clearbody s1. destruct (e_setmap E (s_tick s) (view_of s1 u)) as [m|e|m]; [| |by destruct (C m)];
      (apply np_bind, np_modify, np_ret); (split; [by apply (whole_ti u)|]); cbn; rewrite lookup_alter, Hx1; eauto.
  Qed.
  Lemma np_enter_list skip es s : whole s -> NoDup (t_id <$> all_tasks d') ->
    (forall e, e ∈ es -> e.1 ∈ all_tasks d' /\ t_act e.1 <> None /\ t_from e.1 = []) ->
    np (enter_list E skip i es) s (fun _ s' => whole s').
  Proof.
    intros W Hnd. revert s W. induction es as [|[tk z] es IH]; intros s W He; cbn [enter_list]; [by apply np_ret|].
    destruct (He (tk, z)) as (H1 & H2 & H3); [left|]. cbn in H1, H2, H3. assert (He' : forall e, e ∈ es -> e.1 ∈ all_tasks d' /\ t_act e.1 <> None /\ t_from e.1 = []).
    { intros e Hin. apply He. by right. }
    apply np_bind. eapply np_mono; [by apply np_find|]. intros u s1 (W1 & x & Hx & Hi & Ht). eapply np_ti; [exact Hx|].
    destruct (e_conc E && ti_sched x); [by apply IH|]. apply np_bind. eapply np_mono; [eapply np_enter; [done|exact Hx|done|by rewrite Ht]|].
    intros r s2 (-> & W2 & x2 & Hx2). apply np_bind. eapply np_mono; [by eapply np_settings|]. intros [e|] s3 (W3 & x3 & Hx3); [by apply np_ret|].
    apply np_bind. apply np_modify. set (s4 := set_s_tis _ s3). assert (W4 : whole s4) by (by apply (whole_ti u)).
    assert (Hx4 : s_tis s4 !! u = Some (set_ti_sched true x3)) by (cbn; by rewrite lookup_alter, Hx3). clearbody s4.
    apply np_bind. unfold schedule_eval. eapply np_ti; [exact Hx4|]. apply np_bind, np_get, np_bind, np_modify, np_modify.
    apply IH; [|done]. by eapply whole_same; [..|exact W4].
  Qed.
  Lemma np_enter_top es s : whole s -> NoDup (t_id <$> all_tasks d') -> (forall e, e ∈ es -> e.1 ∈ all_tasks d' /\ t_act e.1 <> None /\ t_from e.1 = []) ->
    np (enter_top E i es) s (fun _ s' => whole s').
  Proof.
    intros W Hnd He. unfold enter_top. pose proof W as (_ & _ & _ & _ & y & Hy & _). eapply np_inst; [exact Hy|]. cbn [enter_tasks]. apply np_with_lock.
    - intros b l Wl. by eapply whole_same; [..|exact Wl].
    - apply np_enter_list; [|done..]. destruct (e_conc E); [|done]. by eapply whole_same; [..|exact W].
  Qed.

  (** *** The panic is handled *)
  Context (Nd : NoDup (t_id <$> all_tasks d')) (Rec : SpecSub.recordable E)
    (Act : handler_acting d').
  Lemma nw_global e : nw (global_error E i e).
  Proof.
    unfold global_error, handle_global_error. apply nw_inst. intros y Hd Hh. destruct (i_handling y); [apply nw_flow_status|].
    apply nw_bind; [by apply nw_upd_inst|]. intros _. rewrite Hd. destruct (d_eh d') as [h|] eqn:Heh.
    - apply nw_bind; [|intros _; apply nw_bind; [|intros; apply nw_ret]].
      + unfold clear_tasks. apply nw_inst0. intros y0. apply nw_bind; [apply nw_upd_inst; [done..|]|intros; apply nw_log].
        intros y1 id u. cbn. by rewrite lookup_empty.
      + intros s W. apply np_enter_top; [done..|]. intros [tk z] He. unfold start_entries in He. apply elem_of_list_fmap in He as (k & [= -> ->] & Hk).
        apply elem_of_list_In, List.filter_In in Hk as [Hk1 Hk2]. apply elem_of_list_In in Hk1. unfold leading in Hk2. cbn.
        assert (t_from k = []) as Hf by (by destruct (t_from k)). split_and!; [|by eapply Act|done]. unfold all_tasks. rewrite Heh. apply elem_of_app. by right.
    - apply nw_bind; [apply nw_flow_status|]. intros _. destruct (i =? 0)%nat; [by apply nw_upd_inst|].
      apply nw_bind; [by apply nw_record|]. intros _. intros s W. pose proof W as (_ & _ & _ & _ & y1 & Hy1 & _ & Hh1 & _).
      apply np_bind. unfold host_of. eapply np_inst; [exact Hy1|]. apply np_ret. rewrite Hh1. destruct hst as [ht|] eqn:Eh; [|by apply np_ret].
      revert s W y1 Hy1 Hh1. rewrite <- Eh. intros s W _ _ _. revert s W. apply nw_bind; [by apply nw_upd_ti|]. intros _. apply nw_schedule. by right.
  Qed.
  Lemma np_recover u m s x : whole s -> s_tis s !! u = Some x -> ti_inst x = i -> np (exec_recover E u m) s (fun _ s' => whole s').
  Proof.
    intros W Hx Hi. unfold exec_recover. eapply np_ti; [exact Hx|]. rewrite Hi. revert s W Hx. intros s W Hx.
    pose proof W as (_ & _ & _ & _ & y & Hy & _). eapply np_inst; [exact Hy|]. cbv zeta. destruct (i_handling y); [by apply np_ret|].
    apply np_bind. unfold append_error_data. eapply np_ti; [exact Hx|]. cbv zeta. rewrite Hi. unfold set_value, set_values.
    eapply np_mono; [eapply (nw_bind (set_attrs _ i _) (fun _ => set_attrs _ i _)); [apply nw_set_attrs|intros; apply nw_set_attrs|done]|].
    intros u1 s1 W1. by apply nw_global.
  Qed.
End Calm.

(** ** A panic does not leave the step *)
Section Step.
  Context (E : env) (d : defn) (uri : string).
  Context (Nd : NoDup (t_id <$> all_tasks d)) (NE : forall n u d', e_def E n u = DOk d' -> NoDup (t_id <$> all_tasks d'))
    (Ha : handler_acting d) (HaE : forall n u d', e_def E n u = DOk d' -> handler_acting d')
    (Calm : settings_calm E) (Rec : SpecSub.recordable E).
  Local Set Default Proof Using "Type*".

  Lemma whole_reach c s t x : reach E d uri c s -> kst s -> s_tis s !! t = Some x ->
    exists d' hst, whole d' (ti_inst x) (Some t) hst s /\ NoDup (t_id <$> all_tasks d') /\ handler_acting d'.
  Proof.
    intros R (K1 & K2 & K3) Hx. destruct (inv_task _ _ _ _ _ R t (ti_inst x) (ti_task x)) as (d' & h & I & _); [by exists x|].
    exists d', h. split; [|split].
    - pose proof (inv_main _ _ _ _ _ R) as (y0 & Hy0 & _). pose proof I as (y & Hy & Hd & Hh). split_and!; [done|eauto|intros ? [= <-]; eauto| |].
      + intros ht ->. destruct (inv_rdy _ _ _ _ _ R) as (_ & _ & Ih). destruct (Ih _ _ _ I) as (? & ? & (xh & Hxh & _) & _). eauto.
      + exists y. split_and!; try done. intros id u Hu. destruct (K3 _ _ _ _ Hy Hu) as (x' & Hx' & Hi' & Hid). exists x'. split_and!; try done.
        destruct (inv_task _ _ _ _ _ R u (ti_inst x) (ti_task x')) as (d2 & h2 & (y2 & Hy2 & Hd2 & _) & Hin & _); [by exists x'|]. congruence.
    - by eapply (inv_defs E d uri (fun d' => NoDup (t_id <$> all_tasks d'))).
    - by eapply (inv_defs E d uri handler_acting).
  Qed.

  Lemma calm_step s m : running E d uri s -> (do_step E s).1 <> Panic m.
  Proof.
    intros Run. pose proof (kst_running _ _ _ _ Run) as K. destruct (running_reach _ _ _ _ Run) as [c R].
    unfold do_step, modify, bind at 1. apply R_step in R. set (s1 := set_s_step (S (s_step s)) s) in *.
    assert (K1 : kst s1) by exact K. clearbody s1. unfold bind at 1, get_inst, get, bind at 1.
    destruct (inv_main _ _ _ _ _ R) as (y0 & Hy0 & _). rewrite Hy0. unfold ret at 1. destruct (decide (i_status y0 = FActive)) as [Hst|Hst]; [rewrite bool_decide_true by done|by rewrite bool_decide_false].
    unfold bind at 1. destruct (s_queue s1) as [|[w t] q] eqn:Hq; [done|].
    unfold bind at 1, get_ti, get, bind at 1.
    destruct (inv_rdy _ _ _ _ _ R) as (_ & Hit & _). destruct (Hit w t) as (ti & tk & (x & Hx & _) & _); [rewrite Hq; left|]. rewrite Hx.
    unfold ret at 1, bind at 1, log_ev, modify, bind at 1.
    eapply R_pop in R; eauto. unfold bind. set (s2 := set_s_log _ _). assert (R2 : reach E d uri (Some t) s2) by exact R.
    assert (K2 : kst s2) by exact K1. assert (Hx2 : s_tis s2 !! t = Some x) by done. clearbody s2.
    cut (forall m, (exec_task E t s2).1 <> Panic m). { intros H. destruct (exec_task E t s2) as [[]?]; try done. intros [= ->]. by apply (H m). }
    clear m. intros m. unfold exec_task, catch. pose proof (reach_wp _ _ _ _ (exec_body E t) _ _ R2 ltac:(by apply wp_exec_body)) as R3.
    destruct (fz_exec_body E t s2 K2) as (K3 & (X3 & _) & _). destruct (X3 _ _ Hx2) as (x3 & Hx3 & _). 
    destruct (exec_body E t s2) as [[|m0| |]s3] eqn:Hb; try done. cbn in *.
    destruct (whole_reach _ _ _ _ R3 K3 Hx3) as (d' & hst & W & N & A).
    pose proof (np_recover E d' (ti_inst x3) (Some t) hst Calm N Rec A t m0 s3 x3 W Hx3 eq_refl) as [P _]. apply P.
  Qed.

  (** *** Whole runs *)
  Context (Hb : built d) (HE : built_env E) (Hm : starts_acting (d_tasks d)) (As : asserts_calm E) (NC : e_conc E = false).

  Lemma step_ok s : running E d uri s -> exists b, (do_step E s).1 = Ok b.
  Proof.
    intros R. pose proof (step_ends E d uri Hb HE Nd NE s R) as H1. pose proof (step_free E d uri s R NC) as H2.
    pose proof (fun m => calm_step s m R) as H3. destruct (do_step E s) as [[b|m| |] s1]; [by exists b|by destruct (H3 m)|done..].
  Qed.
  Notation whole0 := (whole d 0 None None).
  Notation nw0 := (nw d 0 None None).
  Lemma np_loop n : forall k s, running E d uri s -> np (run_loop E n k) s (fun _ s' => running E d uri s').
  Proof.
    induction n as [|n IH]; intros k s R; cbn [run_loop]; [by apply np_ret|].
    destruct (running_reach _ _ _ _ R) as [c Rc]. destruct (inv_main _ _ _ _ _ Rc) as (y & Hy & _). eapply np_inst; [exact Hy|].
    destruct (i_status y <? FCompleted)%Z; [|by apply np_ret]. apply np_bind.
    assert (np (do_step E) s (fun _ s' => running E d uri s')) as Hs.
    { split; [intros m; by apply calm_step|]. intros b s1 H1. replace s1 with (do_step E s).2 by (by rewrite H1). by apply running_step. }
    eapply np_mono; [exact Hs|]. intros b s1 R1. apply np_bind.
    assert (np (if e_ext E then record_state E else ret tt) s1 (fun _ s' => running E d uri s')) as Hr.
    { destruct (e_ext E); [|by apply np_ret]. destruct (running_reach _ _ _ _ R1) as [c1 Rc1].
      split.
      - destruct Rec as (m0 & Hm0 & Hrec). intros m. unfold record_state. rewrite Hm0. destruct Hrec as [Hx|[H1 H2]].
        + rewrite Hx. unfold bind. by destruct (record_snapshot m0), (record_steps m0).
        + by rewrite H1, H2.
      - intros [] s2 H2. replace s2 with (record_state E s1).2 by (by rewrite H2). by apply running_record. }
    eapply np_mono; [exact Hr|]. intros u0 s2 R2. destruct b; [by apply IH|by apply np_ret].
  Qed.
  Lemma nw_return : nw0 (get_return_data 0).
  Proof.
    apply nw_inst. intros y2 _ _. destruct (i_rdata y2); [apply nw_ret|]. destruct (d_md (i_def y2)) as [[mi [mo|]]|]; [|apply nw_ret..]. cbv zeta.
    apply nw_bind; [by apply nw_upd_inst|intros _; apply nw_ret].
  Qed.
  Lemma nw_asserts id ty b k l f : nw0 (flow_asserts E id ty b k l f).
  Proof.
    revert k f. induction l as [|a l IH]; intros k f; cbn [flow_asserts]; [apply nw_ret|].
    destruct (negb b); [apply nw_bind; [apply nw_log|intros; apply IH]|]. destruct (as_empty a); [apply nw_bind; [apply nw_log|intros; apply IH]|].
    intros s W. unfold ext_flow. apply np_bind, np_bind. unfold tick. apply np_bind, np_get, np_bind, np_modify, np_ret.
    set (s1 := set_s_tick _ s). assert (W1 : whole0 s1) by (by eapply whole_same; [..|exact W]). clearbody s1.
    pose proof W1 as (_ & _ & _ & _ & y & Hy & _). eapply np_inst; [exact Hy|]. apply np_ret.
    pose proof (As (s_tick s) (mk_view 0 "" (i_attrs y) ∅ ∅ ∅ ∅)) as A. destruct (e_assert E _ _) as [r|e|m]; [| |by destruct (A m)];
      (revert s1 W1 y Hy A; intros s1 W1 _ _ _; revert s1 W1; apply nw_bind; [apply nw_log|intros; apply IH]).
  Qed.
  Lemma nw_flow_asserts ty : nw0 (apply_flow_asserts E ty).
  Proof.
    apply nw_inst. intros y _ _. cbv zeta. destruct (task_icpt E _) as [c|]; [|apply nw_ret]. apply nw_bind; [apply nw_log|]. intros _. apply nw_asserts.
  Qed.
  Lemma nw_finish ro k : nw0 (run_finish E ro k).
  Proof.
    apply nw_inst. intros y _ _. destruct (_ && _); [apply nw_log|]. apply nw_bind.
    - destruct (i_status y =? FCompleted)%Z.
      + apply nw_bind; [apply nw_return|]. intros r. apply nw_bind; [destruct r.1; [apply nw_set_attrs|apply nw_ret]|]. intros _.
        apply nw_bind; [apply nw_flow_asserts|intros _; apply nw_log].
      + destruct (i_status y =? FFailed)%Z; [|apply nw_ret]. apply nw_bind; [apply nw_flow_asserts|]. intros b.
        apply nw_bind; [destruct b; [apply nw_log|apply nw_ret]|]. intros _. apply nw_inst. intros y1 _ _. apply nw_log.
    - intros _. destruct (e_ext E); [|apply nw_ret]. apply nw_bind; [|intros _; apply nw_log]. apply nw_bind; [apply nw_return|intros; apply nw_ret].
  Qed.
  Lemma whole0_reach c s : reach E d uri c s -> kst s -> whole0 s.
  Proof.
    intros R (K1 & K2 & K3). destruct (inv_main _ _ _ _ _ R) as (y & Hy & Hd & Hh). split_and!; [done|eauto|done..|].
    exists y. split_and!; try done. intros id u Hu. destruct (K3 _ _ _ _ Hy Hu) as (x' & Hx' & Hi' & Hid). exists x'. split_and!; try done.
    destruct (inv_task _ _ _ _ _ R u 0%nat (ti_task x')) as (d2 & h2 & (y2 & Hy2 & Hd2 & _) & Hin & _); [by exists x'|]. congruence.
  Qed.
  Lemma nw_start ins : nw0 (start E ins).
  Proof.
    unfold start, start_instance. apply nw_inst. intros y Hd Hh. apply nw_bind.
    { intros s W. unfold parent_info, host_of. pose proof W as (_ & _ & _ & _ & y1 & Hy1 & _ & Hh1 & _). apply np_bind. eapply np_inst; [exact Hy1|].
      apply np_ret. rewrite Hh1. by apply np_ret. }
    intros h. apply nw_bind; [apply nw_set_attrs|]. intros _. apply nw_bind; [destruct (d_md (i_def y)); [apply nw_set_attrs|apply nw_ret]|]. intros _.
    apply nw_bind; [apply nw_set_attrs|]. intros _. apply nw_bind; [apply nw_flow_status|]. intros _. apply nw_bind; [|intros; apply nw_ret].
    intros s W. apply np_enter_top; [done..|]. rewrite Hd. intros [tk z] He. unfold start_entries in He. apply elem_of_list_fmap in He as (k & [= -> ->] & Hk).
    apply elem_of_list_In, List.filter_In in Hk as [Hk1 Hk2]. apply elem_of_list_In in Hk1. unfold leading in Hk2. cbn.
    assert (t_from k = []) as Hf by (by destruct (t_from k)). split_and!; [|by apply Hm|done]. unfold all_tasks. apply elem_of_app. by left.
  Qed.
  Lemma nw_prepare ro ins : nw0 (run_prepare E ro ins).
  Proof.
    unfold run_prepare. apply nw_bind; [destruct (e_ext E); [|apply nw_ret]; apply nw_bind; [|intros _; apply nw_log]; apply nw_bind; [apply nw_return|intros; apply nw_ret]|].
    intros _. apply nw_bind; [destruct (String.eqb _ _); [apply nw_ret|apply nw_set_attrs]|]. intros _. apply nw_bind; [apply nw_start|]. intros _.
    apply nw_bind; [by apply nw_upd_inst|]. intros _. destruct (e_ext E); [|apply nw_ret]. destruct (ro_init ro <=? 0)%Z; [by apply nw_record|apply nw_log].
  Qed.
  Lemma nw_head ro : nw0 (run_head E ro).
  Proof.
    unfold run_head. apply nw_bind; [destruct (ro_detach ro); [apply nw_log|apply nw_ret]|]. intros _. destruct (ro_retid ro); [apply nw_log|apply nw_ret].
  Qed.
  Lemma whole_init : whole0 (init_st d uri).
  Proof. split_and!; [done|by eexists|done..|]. eexists. split_and!; [by apply lookup_singleton|done..]. Qed.
  Lemma run_calm ro ins m : (run_flow E ro d uri ins).1 <> Panic m.
  Proof.
    unfold run_flow, run_action, run_body. revert m.
    cut (np (bind (run_prepare E ro ins) (fun _ => bind (run_head E ro) (fun _ => finally
      (bind (run_loop E (Z.to_nat (ro_max ro - (if (0 <? ro_init ro)%Z then ro_init ro - 1 else 0))) (if (0 <? ro_init ro)%Z then ro_init ro - 1 else 0))
        (fun k' => run_finish E ro k')) (if ro_detach ro then ret tt else log_ev EvHandlerDone)))) (init_st d uri) (fun _ _ => True)).
    { intros [H _]. exact H. }
    assert (np (run_prepare E ro ins) (init_st d uri) (fun _ s1 => np (run_head E ro) s1 (fun _ s2 => running E d uri s2))) as H.
    { split; [apply nw_prepare, whole_init|]. intros [] s1 H1. split; [apply nw_head|].
      - destruct (nw_prepare ro ins _ whole_init) as [_ H2]. by apply (H2 tt).
      - intros [] s2 H2. assert (Heq : run_begin E ro ins (init_st d uri) = (Ok tt, s2)) by (unfold run_begin, bind; by rewrite H1).
        replace s2 with (run_begin E ro ins (init_st d uri)).2 by (by rewrite Heq). apply running_prepare. by rewrite Heq. }
    apply np_bind. eapply np_mono; [exact H|]. clear H. intros u0 s1 H. apply np_bind. eapply np_mono; [exact H|]. clear H. intros u1 s2 H.
    eapply (np_finally _ _ _ _ (fun _ s' => True)).
    - apply np_bind. eapply np_mono; [by apply np_loop|]. intros k' s3 R3. destruct (running_reach _ _ _ _ R3) as [c Rc].
      eapply np_mono; [apply nw_finish|done]. eapply whole0_reach; [exact Rc|exact (kst_running E d uri _ R3)].
    - intros [] s3 _. destruct (ro_detach ro); [by apply np_ret|by apply np_modify].
  Qed.
  Lemma run_ok ro ins : (run_flow E ro d uri ins).1 = Ok tt.
  Proof.
    pose proof (flow_ends E d uri Hb HE Nd NE ro ins) as H1. pose proof (flow_free E ro d uri ins NC) as H2.
    pose proof (run_calm ro ins) as H3. destruct (run_flow E ro d uri ins) as [[[]|m| |] s1]; [done|by destruct (H3 m)|done..].
  Qed.
End Step.
