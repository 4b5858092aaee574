(** What mocked tasks leave (proofs; no Go counterpart). *)
From Verif Require Export SpecLoop Values Isolation.
Local Open Scope Z_scope.

Section Mock.
  Context (E : env) (t : nat) (tk : task) (i : nat) (d : defn) (c : ticpt).
  Context (Hc : task_icpt E (d_name d +:+ "-" +:+ t_id tk) = Some c) (HM : mappers_ok E).
  Local Set Default Proof Using "Type*".

  (** The task instance and its flow. *)
  Definition here (s : st) : Prop :=
    (exists x, s_tis s !! t = Some x /\ ti_inst x = i /\ ti_task x = tk) /\ exists y, s_insts s !! i = Some y /\ i_def y = d.

  Lemma here_ti f s : (forall x, ti_inst (f x) = ti_inst x /\ ti_task (f x) = ti_task x) -> here s -> here (p_ti t f s).
  Proof. intros Hf [(x & Hx & Hi & Ht) Hy]. split; [|done]. exists (f x). rewrite p_ti_at, Hx. destruct (Hf x) as [-> ->]. done. Qed.
  Lemma here_log e s : here s -> here (p_log e s).
  Proof. done. Qed.
  Lemma here_set tr m s : here s -> here (p_set tr i m s).
  Proof. intros [Hx (y & Hy & Hd)]. split; [done|]. eexists. rewrite p_set_at, Hy. done. Qed.
  Lemma here_tick n s : here s -> here (set_s_tick n s).
  Proof. done. Qed.

  Lemma tot_ti s (Q : tinst -> st -> Prop) : here s ->
    (forall x, s_tis s !! t = Some x -> ti_inst x = i -> ti_task x = tk -> Q x s) -> tot (get_ti t) s Q.
  Proof. intros [(x & Hx & Hi & Ht) _] H. eapply tot_get_ti; [exact Hx|]. by apply H. Qed.
  Lemma tot_in s (Q : inst -> st -> Prop) : here s ->
    (forall y, s_insts s !! i = Some y -> i_def y = d -> Q y s) -> tot (get_inst i) s Q.
  Proof. intros [_ (y & Hy & Hd)] H. eapply tot_get_inst; [exact Hy|]. by apply H. Qed.
  Lemma tot_ext {A} (f : nat -> view -> A) s (Q : A -> st -> Prop) :
    (forall n v, v_task (view_of s t) = v_task v -> Q (f n v) (set_s_tick (S (s_tick s)) s)) -> tot (ext t f) s Q.
  Proof. intros H. unfold ext, tick. eexists _, _. split; [reflexivity|]. apply H. done. Qed.
  Lemma tot_id s (Q : string -> st -> Prop) : here s -> Q (d_name d +:+ "-" +:+ t_id tk) s -> tot (icpt_id t) s Q.
  Proof.
    intros H HQ. unfold icpt_id. apply tot_bind, tot_ti; [done|]. intros x Hx Hi Ht. rewrite Hi. apply tot_bind, tot_in; [done|].
    intros y Hy Hd. apply tot_ret. by rewrite Hd, Ht.
  Qed.
  (** Collected outputs, before. *)
  Context (need : Prop) (b0 : list val).
  Definition here0 (s : st) : Prop := here s /\ (need -> accumulates tk = true -> held E (attr_of s i (all_key (t_id tk))) b0).
  Lemma here0_ti f s : (forall x, ti_inst (f x) = ti_inst x /\ ti_task (f x) = ti_task x) -> here0 s -> here0 (p_ti t f s).
  Proof. intros Hf [H H0]. split; [by apply here_ti|done]. Qed.
  Lemma tot_exec z s (Q : unit -> st -> Prop) : here0 s -> (forall s', here0 s' -> Q tt s') -> tot (set_exec_status E t z) s Q.
  Proof. intros H HQ. unfold set_exec_status. apply tot_bind, tot_id; [apply H|]. rewrite Hc. apply tot_log. by apply HQ. Qed.
  Lemma tot_asserts k l s (Q : option err -> st -> Prop) id :
    (forall s', s_tis s' = s_tis s -> s_insts s' = s_insts s -> Q None s') -> tot (run_asserts E t id false k l) s Q.
  Proof.
    revert k s. induction l as [|a l IH]; intros k s HQ; cbn [run_asserts negb]; [apply tot_ret; by apply HQ|].
    apply tot_bind, tot_log. apply IH. intros s' Ht Hi. by apply HQ.
  Qed.

  (** Up to the call. *)
  Lemma eval_mocked s (Q : err + bool -> st -> Prop) ac :
    here0 s -> t_act tk = Some ac -> (tc_skipexec c = true \/ exists c', task_icpt E (t_id tk) = Some c' /\ tc_skip c' = true) ->
    (forall s', here0 s' -> tot (finish_activity E t) s' Q) -> tot (eval_activity E t) s Q.
  Proof.
    intros H Hac Hsk HQ. destruct HM as (M1 & M2 & M3). unfold eval_activity, recover_eval. apply tot_catch, tot_bind, tot_ti; [apply H|].
    intros x Hx Hi Ht. rewrite Ht, Hac.
    assert (Hk : forall s', here0 s' -> tot (ev <- apply_input_icpt E t;
        (if ev : bool then guard_err (ext t (e_inschema E)) (mocked <- has_output_icpt E t;
          (if mocked : bool then set_exec_status E t 3 ;; finish_activity E t
          else r <- call_activity E t; match r with inl e => ret (inl e) | inr false => ret (inr false) | inr true => finish_activity E t end))
        else finish_activity E t)) s' Q).
    { intros s' H'. apply tot_bind. unfold apply_input_icpt. apply tot_bind, tot_ti; [apply H'|]. intros x1 Hx1 Hi1 Ht1. rewrite Ht1.
      assert (Hrun : forall s2, here0 s2 -> tc_skipexec c = true -> tot (guard_err (ext t (e_inschema E)) (mocked <- has_output_icpt E t;
          (if mocked : bool then set_exec_status E t 3 ;; finish_activity E t
          else r <- call_activity E t; match r with inl e => ret (inl e) | inr false => ret (inr false) | inr true => finish_activity E t end))) s2 Q).
      { intros s2 H2 Hs. unfold guard_err. apply tot_bind, tot_ext. intros n v _. rewrite M2. unfold has_output_icpt. apply tot_bind, tot_bind.
        apply tot_id; [apply H2|]. rewrite Hc, Hs. apply tot_ret. apply tot_bind, tot_exec; [done|]. auto. }
      destruct (task_icpt E (t_id tk)) as [c'|] eqn:Hc'.
      - apply tot_bind, tot_bind, tot_get, tot_ret. apply tot_bind, tot_upd_ti, tot_ret.
        match goal with |- context [p_ti t ?f s'] => assert (H2 : here0 (p_ti t f s')) by (by apply here0_ti) end.
        destruct (tc_skip c') eqn:Hs; cbn [negb].
        + by apply HQ.
        + apply Hrun; [done|]. destruct Hsk as [?|(? & [= <-] & ?)]; congruence.
      - apply tot_ret. apply Hrun; [done|]. destruct Hsk as [?|(? & ? & ?)]; done. }
    unfold guard_err at 1. apply tot_bind. destruct (ac_inmap ac).
    - apply tot_bind. unfold apply_input_mapper. apply tot_bind, tot_ext. intros n v _. destruct (M1 n v) as [m ->].
      apply tot_bind, tot_upd_ti, tot_ret, tot_ret. apply Hk. by apply here0_ti.
    - apply tot_ret. by apply Hk.
  Qed.

  (** Mocked outputs. *)
  Context (ac : act_cfg) (Hac : t_act tk = Some ac).
  Definition mocked_out (o : vmap) (a : vmap) : Prop :=
    (forall n w, tc_out c !! n = Some w -> o !! n = Some w) /\
    (accumulates tk = false \/ acc_apply tk = true -> forall ns n w, ac_outs ac = Some ns -> n ∈ ns -> tc_out c !! n = Some w -> a !! out_key (t_id tk) n = Some w) /\
    (accumulates tk = true -> a !! all_key (t_id tk) = Some (VArr (b0 ++ [VObj (map_to_list o)]))).
  Definition mocked_st (s : st) : Prop :=
    exists x y, s_tis s !! t = Some x /\ ti_inst x = i /\ ti_task x = tk /\ s_insts s !! i = Some y /\ i_def y = d /\ mocked_out (ti_out x) (i_attrs y).
  Lemma mocked_here s : mocked_st s -> here s.
  Proof. intros (x & y & Hx & Hi & Ht & Hy & Hd & _). split; [by exists x|by exists y]. Qed.
  Lemma mocked_ti f s : (forall x, ti_inst (f x) = ti_inst x /\ ti_task (f x) = ti_task x /\ ti_out (f x) = ti_out x) -> mocked_st s -> mocked_st (p_ti t f s).
  Proof.
    intros Hf (x & y & Hx & Hi & Ht & Hy & Hd & Hm). exists (f x), y. rewrite p_ti_at, Hx. destruct (Hf x) as (-> & -> & ->). done.
  Qed.
  Lemma mapper_mocked s x y (Q : unit -> st -> Prop) : s_tis s !! t = Some x -> ti_inst x = i -> ti_task x = tk -> s_insts s !! i = Some y ->
    (forall s', s_tis s' = s_tis s -> (exists y', s_insts s' !! i = Some y' /\ i_def y' = i_def y /\
       (forall k, k = all_key (t_id tk) -> i_attrs y' !! k = i_attrs y !! k) /\
       forall ns n w, ac_outs ac = Some ns -> n ∈ ns -> ti_out x !! n = Some w -> i_attrs y' !! out_key (t_id tk) n = Some w) -> Q tt s') ->
    tot (apply_output_mapper E t) s Q.
  Proof.
    intros Hx Hi Ht Hy HQ. unfold apply_output_mapper. apply tot_bind. eapply tot_get_ti; [exact Hx|]. rewrite Ht, Hac, Hi.
    unfold set_values. eapply tot_eq; [by eapply set_attrs_eq|]. apply HQ; [done|]. eexists. split; [rewrite p_set_at, Hy; reflexivity|]. split; [done|]. split.
    - intros k ->. cbn. rewrite lookup_union. destruct (mapped_outputs (t_id tk) (ac_outs ac) (ti_out x) !! all_key (t_id tk)) eqn:H; [|by destruct (i_attrs y !! _)].
      apply mapped_only in H as (ns & n & _ & _ & H & _). by apply all_out_key in H.
    - intros ns n w Hns Hn Hw. cbn. rewrite lookup_union, Hns. rewrite (mapped_in _ _ _ _ _ Hn Hw). by destruct (i_attrs y !! _).
  Qed.
  Lemma finish_outputs s : need -> here0 s -> tc_type c = 4%Z ->
    (forall v n w, tc_out c !! n = Some w -> e_totype E true v n w = Some w) ->
    tot (finish_activity E t) s (fun r s' => r = inr true /\ mocked_st s').
  Proof.
    intros N [H H0] Hty Hcv. destruct HM as (M1 & M2 & M3). unfold finish_activity. apply tot_bind, tot_ti; [done|].
    intros x Hx Hi Ht. rewrite Ht. unfold guard_err. apply tot_bind, tot_ext. intros n0 v0 _. rewrite M3.
    set (s1 := set_s_tick _ s). assert (H1 : here0 s1) by (split; [exact H|exact H0]). clearbody s1. clear x Hx Hi Ht.
    (* the outputs *)
    apply tot_bind. set (G := fun s' => exists x, s_tis s' !! t = Some x /\ forall n w, tc_out c !! n = Some w -> ti_out x !! n = Some w).
    apply (tot_mono _ _ (fun (r : option err) s' => r = None /\ here0 s' /\ G s')).
    { unfold apply_output_icpt. apply tot_bind, tot_id; [apply H1|]. rewrite Hc. case_bool_decide as He.
      - apply tot_ret. split; [done|]. split; [done|]. destruct H1 as [[(x & Hx & _) _] _]. exists x. split; [done|]. intros n w. by rewrite He, lookup_empty.
      - apply tot_bind, tot_bind, tot_get, tot_ret. rewrite Hty, Z.eqb_refl.
        rewrite (proj2 (forallb_forall _ _)).
        + apply tot_bind, tot_upd_ti, tot_ret. split; [done|]. split; [by apply here0_ti|].
          destruct H1 as [[(x & Hx & _) _] _]. eexists. split; [by rewrite p_ti_at, Hx|]. intros n w Hw. cbn. rewrite lookup_union, lookup_omap, map_lookup_imap, Hw. cbn.
          rewrite (Hcv _ _ _ Hw). cbn. by destruct (ti_out x !! n).
        + intros [n o] Hin. apply elem_of_list_In, elem_of_map_to_list in Hin. rewrite map_lookup_imap in Hin.
          destruct (tc_out c !! n) as [w|] eqn:Hw; [|done]. cbn in Hin. rewrite (Hcv _ _ _ Hw) in Hin. by injection Hin as <-. }
    intros r s2 (-> & [[(x' & Hx' & Hi & Ht) (y & Hy & Hd)] Hh] & (x & Hx & Ho)). rewrite Hx in Hx'. injection Hx' as <-.
    apply tot_bind. apply (tot_mono _ _ (fun (r : option err) s' => r = None /\ mocked_st s')).
    { destruct (accumulates tk) eqn:Hacc.
      - apply tot_bind. specialize (Hh N eq_refl). unfold handle_accumulation. apply tot_bind. eapply tot_get_ti; [exact Hx|]. rewrite Hi, Ht.
        apply tot_bind. eapply tot_get_inst; [exact Hy|]. unfold attr_of in Hh. rewrite Hy in Hh. cbn in Hh.
        change ("_A." +:+ t_id tk) with (all_key (t_id tk)).
        assert (Hset : forall (Q : option err -> st -> Prop),
          (forall s' y', s_tis s' = s_tis s2 -> s_insts s' !! i = Some y' -> i_def y' = d ->
             i_attrs y' !! all_key (t_id tk) = Some (VArr (b0 ++ [VObj (map_to_list (ti_out x))])) -> Q None s') ->
          tot (set_value E i (all_key (t_id tk)) (VArr (b0 ++ [VObj (map_to_list (ti_out x))])) ;; ret None) s2 Q).
        { intros Q HQ. apply tot_bind. unfold set_value, set_values. eapply tot_eq; [by eapply set_attrs_eq|]. apply tot_ret.
          eapply HQ; [done|by rewrite p_set_at, Hy|done|]. cbn. rewrite lookup_union, lookup_singleton. by destruct (i_attrs y !! _). }
        assert (Hgo : forall s' y', s_tis s' = s_tis s2 -> s_insts s' !! i = Some y' -> i_def y' = d ->
             i_attrs y' !! all_key (t_id tk) = Some (VArr (b0 ++ [VObj (map_to_list (ti_out x))])) ->
             tot ((if acc_apply tk then apply_output_mapper E t else ret tt) ;; ret (@None err)) s' (fun r s' => r = None /\ mocked_st s')).
        { intros s' y' Ets Hy' Hd' Ha'. assert (Hx' : s_tis s' !! t = Some x) by (by rewrite Ets). destruct (acc_apply tk) eqn:Hap.
          - apply tot_bind. eapply (mapper_mocked s' x y'); [done..|]. intros s3 Et3 (y3 & Hy3 & Hd3 & Hall & Hout). apply tot_ret. split; [done|].
            exists x, y3. rewrite Et3. split_and!; try done; [congruence|]. split; [done|]. split; [intros _; by eauto|]. intros _. by rewrite Hall.
          - apply tot_bind, tot_ret, tot_ret. split; [done|]. exists x, y'. split_and!; try done. split; [done|]. split; [|done]. rewrite Hacc, Hap. intros []; done. }
        destruct (i_attrs y !! all_key (t_id tk)) as [a|] eqn:Ha; cbn in Hh.
        + rewrite Hh. apply Hset. intros; by eapply Hgo.
        + replace [VObj (map_to_list (ti_out x))] with (b0 ++ [VObj (map_to_list (ti_out x))]) by (by rewrite Hh). apply Hset. intros; by eapply Hgo.
      - apply tot_bind. eapply (mapper_mocked s2 x y); [done..|]. intros s3 Et3 (y3 & Hy3 & Hd3 & Hall & Hout). apply tot_ret. split; [done|].
        exists x, y3. rewrite Et3. split_and!; try done; [congruence|]. split; [done|]. split; [intros _; by eauto|]. intros ?. congruence. }
    intros r s3 [-> H3]. apply tot_bind. unfold apply_asserts. apply tot_bind, tot_id; [by apply mocked_here|]. rewrite Hc, Hty. apply tot_asserts.
    intros s4 E1 E2. apply tot_ret. split; [done|]. unfold mocked_st. by rewrite E1, E2.
  Qed.

  (** A mocked exception. *)
  Lemma finish_exception s msg :
    here0 s -> tc_type c = 5%Z -> tc_out c !! "message" = Some (VStr msg) ->
    tot (finish_activity E t) s (fun r s' => here s' /\ exists dt, r = inl (EAct msg "" dt false (t_id tk)) /\
      dt = match tc_out c !! "data" with None | Some VNil => VObj [] | Some v => v end).
  Proof.
    intros [H H0] Hty Hmsg. destruct HM as (M1 & M2 & M3). unfold finish_activity. apply tot_bind, tot_ti; [done|].
    intros x Hx Hi Ht. unfold guard_err. apply tot_bind, tot_ext. intros n0 v0 _. rewrite M3.
    set (s1 := set_s_tick _ s). assert (H1 : here s1) by exact H. assert (Hx1 : s_tis s1 !! t = Some x) by exact Hx. clearbody s1.
    apply tot_bind. unfold apply_output_icpt. apply tot_bind, tot_id; [done|]. rewrite Hc.
    rewrite bool_decide_eq_false_2 by (intros He; by rewrite He, lookup_empty in Hmsg).
    apply tot_bind, tot_bind, tot_get, tot_ret. rewrite Hty. cbn [Z.eqb]. change (5 =? 4)%Z with false. change (5 =? 5)%Z with true. cbv iota.
    rewrite Hmsg. apply tot_ret, tot_ret. split; [done|]. eexists. split; [|reflexivity]. unfold view_of. by rewrite Hx1, <- Ht.
  Qed.

  (** ** A round of a task *)
  Definition alive (s : st) : Prop := forall x, s_tis s !! t = Some x -> ti_status x <> TSkipped.
  Section Round.
    Context (K : st -> Prop) (r0 : err + bool) (Hr0 : match r0 with inl e => retriable e = false | inr b => b = true end).
    Context (HK : forall s, here0 s -> tot (eval_activity E t) s (fun r s' => r = r0 /\ here s' /\ K s')).
    Context (HKti : forall f s, (forall x, ti_inst (f x) = ti_inst x /\ ti_task (f x) = ti_task x /\ ti_out (f x) = ti_out x) -> K s -> K (p_ti t f s)).
    Context (HKsame : forall s s', s_tis s' = s_tis s -> s_insts s' = s_insts s -> K s -> K s').
    Lemma retry_once s : here0 s -> tot (eval_retry E t) s (fun r s' => r = r0 /\ here s' /\ K s').
    Proof.
      intros H. unfold eval_retry. apply tot_bind. eapply tot_mono; [by apply HK|]. intros r s1 (-> & H1 & HQ).
      apply tot_bind, tot_ti; [done|]. intros x1 _ _ _. destruct r0 as [e|b]; [|apply tot_ret; split; done].
      rewrite Hr0. destruct (t_retry (ti_task x1)); apply tot_ret; split; done.
    Qed.
    Lemma basic_round s : here0 s -> alive s ->
      tot (basic_eval E t) s (fun r s' => r = match r0 with inl e => inl e | inr _ => inr EvalDone end /\ K s').
    Proof.
      intros H Hs. unfold basic_eval. apply tot_bind, tot_ti; [apply H|]. intros x Hx Hi Ht. rewrite bool_decide_eq_false_2 by by apply Hs.
      apply tot_bind. eapply tot_mono; [by apply retry_once|]. intros r s1 (-> & H1 & HQ). apply tot_ret. split; [|done]. destruct r0; [done|]. by rewrite Hr0.
    Qed.
    Lemma tot_wd k w s (Q : unit -> st -> Prop) : (forall f, (forall x, ti_inst (f x) = ti_inst x /\ ti_task (f x) = ti_task x /\ ti_out (f x) = ti_out x) ->
      Q tt (p_ti t f s)) -> tot (set_wd t k w) s Q.
    Proof. intros HQ. unfold set_wd. apply tot_upd_ti. by apply HQ. Qed.
    Lemma here0_wd f s : (forall x, ti_inst (f x) = ti_inst x /\ ti_task (f x) = ti_task x /\ ti_out (f x) = ti_out x) -> here0 s -> here0 (p_ti t f s).
    Proof. intros Hf. apply here0_ti. intros x. by destruct (Hf x) as (? & ? & ?). Qed.
    Lemma tot_fail s (Q : unit -> st -> Prop) z : here s -> K s -> (forall s', K s' -> Q tt s') -> tot (set_task_status t z) s Q.
    Proof.
      intros H HKs HQ. unfold set_task_status. apply tot_bind, tot_ti; [done|]. intros x _ _ _. apply tot_bind, tot_upd_ti, tot_log. apply HQ.
      eapply HKsame; [..|by apply (HKti (set_ti_status z))]; done.
    Qed.
    Lemma iter_more it : more it -> exists p, (iter_next it).2 = Some p.
    Proof.
      destruct it as [c0 l|c0 n|c0 l]; cbn.
      - intros [H1 H2]. rewrite (proj2 (Z.ltb_lt _ _)) by lia. destruct (lookup_lt_is_Some_2 l (Z.to_nat (c0 + 1))) as [a ->]; [lia|]. eauto.
      - intros H. rewrite (proj2 (Z.ltb_lt _ _)) by lia. eauto.
      - intros [H1 H2]. rewrite (proj2 (Z.ltb_lt _ _)) by lia. destruct (lookup_lt_is_Some_2 l (Z.to_nat (c0 + 1))) as [a ->]; [lia|]. cbn. eauto.
    Qed.
    Lemma step_round it s : here0 s -> more it ->
      tot (iter_step E t it) s (fun r s' => r = match r0 with inl e => inl e | inr _ => inr EvalRepeat end /\ K s').
    Proof.
      intros H Hm. destruct (iter_more it Hm) as (((k & v) & ix) & Hn). unfold iter_step. destruct (iter_next it) as [it' o]. cbn in Hn. subst o.
      apply tot_bind, tot_wd. intros f1 Hf1. apply tot_bind, tot_wd. intros f2 Hf2. apply tot_bind.
      eapply tot_mono; [apply retry_once; by apply here0_wd, here0_wd|]. intros r s1 (-> & H1 & HQ). pose proof Hr0 as Hr1. case_eq r0.
      - intros e He. apply tot_bind. apply tot_fail; [done..|]. intros s' HQ'. by apply tot_ret.
      - intros b He. rewrite He in Hr1. subst b. by apply tot_ret.
    Qed.
    Lemma iter_round s x : here0 s -> s_tis s !! t = Some x -> ti_status x <> TSkipped -> t_type tk = TIterator -> makes_round E t s x ->
      tot (iter_eval E t) s (fun r s' => r = match r0 with inl e => inl e | inr _ => inr EvalRepeat end /\ K s').
    Proof.
      intros H Hx Hs Hty Hm. unfold iter_eval. apply tot_bind. eapply tot_get_ti; [exact Hx|]. rewrite bool_decide_eq_false_2 by done.
      destruct H as [[(x' & Hx' & Hi & Ht) Hy] Ha]. assert (x' = x) as -> by congruence. rewrite <- Ht in Hty. specialize (Hm Hty).
      assert (H : here0 s) by (split; [split; [by exists x|done]|done]).
      destruct (ti_wd x !! "_iterator") as [[it| | |]|]; [by apply step_round|done..|].
      destruct Hm as (lc & v & Hlc & Hit & Hable & Hne). rewrite Hlc. apply tot_bind.
      assert (Hmk : exists it, make_iter E v = Some it /\ more it /\ v <> VNil).
      { destruct v as [|b|z|v|l|l|n]; try done; cbn in Hable, Hne |- *.
        - exists (ItInt (-1) z). split_and!; [done| |done]. cbn. destruct (decide (z <= 0)); [by rewrite seqZ_nil in Hne by lia|lia].
        - destruct (e_toint E (VStr v)) as [z|]; [|done]. exists (ItInt (-1) z). split_and!; [done| |done]. cbn.
          destruct (decide (z <= 0)); [by rewrite seqZ_nil in Hne by lia|lia].
        - exists (ItArr (-1) l). split_and!; [done| |done]. destruct l; [done|]. cbn. lia.
        - exists (ItObj (-1) l). split_and!; [done| |done]. destruct l; [done|]. cbn. lia. }
      destruct Hmk as (it & Hmk & Hmo & Hnn).
      assert (Hgo : forall s', here0 s' -> tot (match v with
            | VNil => ret (inr EvalDone)
            | _ => match make_iter E v with
                | None => ret (inl (EOther ("iterator '" +:+ t_name (ti_task x) +:+ "' not properly configured")))
                | Some it => set_wd t "_iterator" (WIter it) ;; set_wd t "iteration" (WIteration VNil VNil 0) ;; iter_step E t it
                end end) s' (fun r s' => r = match r0 with inl e => inl e | inr _ => inr EvalRepeat end /\ K s')).
      { intros s' H'. rewrite Hmk. destruct v; [done|..]; (apply tot_bind, tot_wd; intros f1 Hf1; apply tot_bind, tot_wd; intros f2 Hf2; apply step_round; [|done]; by apply here0_wd, here0_wd). }
      unfold iterate_on, iterates in *. destruct (lc_iter lc) as [[src|v']|].
      - apply tot_bind. unfold ext, tick. eexists _, _. split; [reflexivity|]. rewrite Hit. apply tot_ret. by apply Hgo.
      - subst v'. apply tot_ret. by apply Hgo.
      - done.
    Qed.
    (** doWhile: the condition is evaluated afterwards, whatever comes of it. *)
    Definition keepK {A} (m : M A) : Prop := forall s, K s -> K (m s).2.
    Lemma keepK_bind {A B} (m : M A) (k : A -> M B) : keepK m -> (forall a, keepK (k a)) -> keepK (bind m k).
    Proof. intros Hm Hk s HQ. unfold bind. specialize (Hm s HQ). destruct (m s) as [[a| | |] s1]; try done. by apply Hk. Qed.
    Lemma keepK_ret {A} (a : A) : keepK (ret a).
    Proof. by intros s. Qed.
    Lemma keepK_panic {A} m : keepK (@panic A m).
    Proof. by intros s. Qed.
    Lemma keepK_get_ti u : keepK (get_ti u).
    Proof. intros s HQ. unfold get_ti, bind, get. by destruct (s_tis s !! u). Qed.
    Lemma keepK_ext {A} (f : nat -> view -> A) : keepK (ext t f).
    Proof. intros s HQ. eapply HKsame; [..|exact HQ]; done. Qed.
    Lemma keepK_log e : keepK (log_ev e).
    Proof. intros s HQ. eapply HKsame; [..|exact HQ]; done. Qed.
    Lemma keepK_wd k w : keepK (set_wd t k w).
    Proof. intros s HQ. by apply (HKti (fun x => set_ti_wd (<[k := w]> (ti_wd x)) x)). Qed.
    Lemma keepK_catch {A} (m : M A) h : keepK m -> (forall e, keepK (h e)) -> keepK (catch m h).
    Proof. intros Hm Hh s HQ. unfold catch. specialize (Hm s HQ). destruct (m s) as [[a|e| |] s1]; try done. by apply Hh. Qed.
    Lemma keepK_after {A} (m : M A) f : keepK m -> keepK f -> keepK (finally m f).
    Proof.
      intros Hm Hf. unfold finally. apply keepK_bind; [apply keepK_catch; [apply keepK_bind; [done|intros; apply keepK_ret]|intros; apply keepK_ret]|].
      intros a. apply keepK_bind; [done|]. intros _. destruct a; [apply keepK_panic|apply keepK_ret].
    Qed.
    Lemma keepK_cond : keepK (check_cond E t).
    Proof.
      apply keepK_bind; [apply keepK_get_ti|]. intros x. destruct (t_loop (ti_task x)) as [[[src|] ? ? ? ?]|]; try apply keepK_ret.
      apply keepK_bind; [apply keepK_ext|]. intros [v|e|e]; [|apply keepK_ret|apply keepK_panic]. apply keepK_bind; [apply keepK_log|].
      intros _. destruct v as [|[]| | | | |]; (apply keepK_ret || apply keepK_panic).
    Qed.
    Lemma keepK_index : keepK (update_index t).
    Proof.
      apply keepK_bind; [apply keepK_get_ti|]. intros x. destruct (ti_wd x !! "iteration") as [[]|]; (apply keepK_wd || apply keepK_panic).
    Qed.
    Lemma dw_round s x r s' : here0 s -> s_tis s !! t = Some x -> ti_status x <> TSkipped ->
      dw_eval E t s = (Ok r, s') -> (forall e, r0 = inl e -> r = inl e) /\ K s'.
    Proof.
      intros H Hx Hs.
      assert (T : tot (init_index t ;; eval_retry E t) s (fun r s' => r = r0 /\ here s' /\ K s')).
      { apply tot_bind. unfold init_index. apply tot_bind. eapply tot_get_ti; [exact Hx|].
        destruct (ti_wd x !! "iteration"); (apply tot_wd; intros f Hf; apply retry_once; by apply here0_wd). }
      destruct T as (r1 & s1 & Heq & -> & H1 & HQ).
      unfold dw_eval. unfold bind at 1, get_ti at 1, bind at 1, get at 1. rewrite Hx. cbn beta iota. unfold ret at 1. cbn beta iota. rewrite bool_decide_eq_false_2 by done.
      unfold bind in Heq |- *. destruct (init_index t s) as [[u| | |] s0]; try done. rewrite Heq. pose proof Hr0 as Hr1. case_eq r0.
      - intros e He. destruct (tot_fail s1 (fun _ s2 => K s2) TFailed H1 HQ ltac:(done)) as (u' & s2 & -> & HQ2).
        intros [= <- <-]. split; [|done]. intros e' [= ->]. done.
      - intros b He. rewrite He in Hr1. subst b. intros Hf. split; [done|].
        pose proof (keepK_after _ _ keepK_cond keepK_index s1 HQ) as Hk. by rewrite Hf in Hk.
    Qed.
  End Round.
End Mock.

Lemma mocked_start E s t x r s1 y (need : Prop) b0 : evaluates E s t x r s1 -> ti_status x <> TWaiting -> s_insts s !! ti_inst x = Some y ->
  (need -> accumulates (ti_task x) = true -> held E (attr_of s (ti_inst x) (all_key (t_id (ti_task x)))) b0) ->
  exists s0, here0 E t (ti_task x) (ti_inst x) (i_def y) need b0 s0 /\ s_tis s0 !! t = Some x /\ ti_status x <> TSkipped /\
    (makes_round E t s x -> makes_round E t s0 x) /\ beh_eval E (t_type (ti_task x)) t s0 = (Ok r, s1).
Proof.
  intros (Ha & Hx & Hs & Hd & w & q & Hq & He) Hw Hy Hh. rewrite bool_decide_eq_false_2 in He by done.
  eexists. split; [|split; [|split; [done|split; [|exact He]]]]; [|exact Hx|done]. split; [split; [exists x; done|]; exists y; done|done].
Qed.
Lemma mock_round E s t x r s1 y ac (need : Prop) b0 r0 (K : st -> Prop) c :
  evaluates E s t x r s1 -> ti_status x <> TWaiting -> s_insts s !! ti_inst x = Some y -> mappers_ok E ->
  (need -> accumulates (ti_task x) = true -> held E (attr_of s (ti_inst x) (all_key (t_id (ti_task x)))) b0) ->
  makes_round E t s x -> t_act (ti_task x) = Some ac ->
  task_icpt E (d_name (i_def y) +:+ "-" +:+ t_id (ti_task x)) = Some c ->
  match r0 with inl e => retriable e = false | inr b => b = true end ->
  (forall s, here0 E t (ti_task x) (ti_inst x) (i_def y) need b0 s ->
     tot (eval_activity E t) s (fun r s' => r = r0 /\ here t (ti_task x) (ti_inst x) (i_def y) s' /\ K s')) ->
  (forall f s, (forall x, ti_inst (f x) = ti_inst x /\ ti_task (f x) = ti_task x /\ ti_out (f x) = ti_out x) -> K s -> K (p_ti t f s)) ->
  (forall s s', s_tis s' = s_tis s -> s_insts s' = s_insts s -> K s -> K s') ->
  (forall e, r0 = inl e -> r = inl e) /\ (r0 = inr true -> match t_type (ti_task x) with TBasic => r = inr EvalDone | TIterator => r = inr EvalRepeat | TDoWhile => True end) /\ K s1.
Proof.
  intros Ev Hw Hy HM Hh Hm Hac Hc Hr0 HK H1 H2. destruct (mocked_start _ _ _ _ _ _ _ _ _ Ev Hw Hy Hh) as (s0 & H0 & Hx0 & Hns & Hm0 & He). specialize (Hm0 Hm).
  destruct (t_type (ti_task x)) eqn:Hty; cbn [beh_eval] in He.
  - destruct (basic_round E t (ti_task x) (ti_inst x) (i_def y) c Hc HM need b0 ac Hac K r0 Hr0 HK H1 H2 s0 H0) as (r' & s' & Hr & -> & HQ); [intros x' ?; congruence|].
    rewrite He in Hr. injection Hr as -> ->. split; [by intros e ->|]. split; [by intros ->|done].
  - destruct (iter_round E t (ti_task x) (ti_inst x) (i_def y) c Hc HM need b0 ac Hac K r0 Hr0 HK H1 H2 s0 x H0 Hx0 Hns Hty Hm0) as (r' & s' & Hr & -> & HQ).
    rewrite He in Hr. injection Hr as -> ->. split; [by intros e ->|]. split; [by intros ->|done].
  - destruct (dw_round E t (ti_task x) (ti_inst x) (i_def y) c Hc HM need b0 ac Hac K r0 Hr0 HK H1 H2 s0 x r s1 H0 Hx0 Hns He). done.
Qed.
Lemma mock_outputs E s t x r s1 y ac c b0 :
  evaluates E s t x r s1 -> ti_status x <> TWaiting -> makes_round E t s x -> t_act (ti_task x) = Some ac ->
  s_insts s !! ti_inst x = Some y -> mappers_ok E ->
  (accumulates (ti_task x) = true -> held E (attr_of s (ti_inst x) (all_key (t_id (ti_task x)))) b0) ->
  task_icpt E (d_name (i_def y) +:+ "-" +:+ t_id (ti_task x)) = Some c -> tc_type c = 4 ->
  tc_skipexec c = true \/ (exists c', task_icpt E (t_id (ti_task x)) = Some c' /\ tc_skip c' = true) ->
  (forall v n w, tc_out c !! n = Some w -> e_totype E true v n w = Some w) ->
  match t_type (ti_task x) with TBasic => r = inr EvalDone | TIterator => r = inr EvalRepeat | TDoWhile => True end /\
  exists x1, s_tis s1 !! t = Some x1 /\ (forall n w, tc_out c !! n = Some w -> ti_out x1 !! n = Some w) /\
    (accumulates (ti_task x) = false \/ acc_apply (ti_task x) = true -> forall ns n w, ac_outs ac = Some ns -> n ∈ ns -> tc_out c !! n = Some w ->
       attr_of s1 (ti_inst x) (out_key (t_id (ti_task x)) n) = Some w) /\
    (accumulates (ti_task x) = true -> attr_of s1 (ti_inst x) (all_key (t_id (ti_task x))) = Some (VArr (b0 ++ [out_obj x1]))).
Proof.
  intros Ev Hw Hm Hac Hy HM Hh Hc Hty Hsk Hcv.
  destruct (mock_round E s t x r s1 y ac True b0 (inr true) (mocked_st t (ti_task x) (ti_inst x) (i_def y) c b0 ac) c) as (_ & Hr & x1 & y1 & Hx1 & Hi1 & Ht1 & Hy1 & Hd1 & M1 & M2 & M3); try done.
  - intros s' H'. eapply (eval_mocked E t (ti_task x) (ti_inst x) (i_def y) c Hc HM True b0); [done|exact Hac|done|]. intros s2 H2'.
    eapply tot_mono; [by apply (finish_outputs E t (ti_task x) (ti_inst x) (i_def y) c Hc HM True b0 ac Hac s2 I)|].
    intros r2 s3 [-> H3]. split; [done|]. split; [|done]. by eapply mocked_here.
  - intros f s' Hf. by apply (mocked_ti E t (ti_task x) (ti_inst x) (i_def y) c Hc HM b0 ac Hac).
  - intros s' s2 E1 E2. unfold mocked_st. by rewrite E1, E2.
  - split; [by apply Hr|]. exists x1. split; [done|]. split; [done|]. unfold attr_of. rewrite Hy1. done.
Qed.
Lemma mock_exception E s t x r s1 y ac c msg :
  evaluates E s t x r s1 -> ti_status x <> TWaiting -> makes_round E t s x -> t_act (ti_task x) = Some ac ->
  s_insts s !! ti_inst x = Some y -> mappers_ok E ->
  task_icpt E (d_name (i_def y) +:+ "-" +:+ t_id (ti_task x)) = Some c -> tc_type c = 5 ->
  tc_skipexec c = true \/ (exists c', task_icpt E (t_id (ti_task x)) = Some c' /\ tc_skip c' = true) ->
  tc_out c !! "message" = Some (VStr msg) ->
  exists dt, r = inl (EAct msg "" dt false (t_id (ti_task x))) /\ (forall v, v <> VNil -> tc_out c !! "data" = Some v -> dt = v).
Proof.
  intros Ev Hw Hm Hac Hy HM Hc Hty Hsk Hmsg.
  set (dt := match tc_out c !! "data" with None | Some VNil => VObj [] | Some v => v end).
  destruct (mock_round E s t x r s1 y ac False [] (inl (EAct msg "" dt false (t_id (ti_task x)))) (fun _ => True) c) as (Hr & _); try done.
  - intros s' H'. eapply (eval_mocked E t (ti_task x) (ti_inst x) (i_def y) c Hc HM False []); [done|exact Hac|done|]. intros s2 H2'.
    eapply tot_mono; [by apply (finish_exception E t (ti_task x) (ti_inst x) (i_def y) c Hc HM False [] ac Hac s2 msg)|].
    intros r' s3 (H3 & dt' & -> & ->). done.
  - exists dt. split; [by apply Hr|]. intros v Hv Hd. subst dt. rewrite Hd. by destruct v.
Qed.
