(** The evaluation of a task without retry in an environment without subflows: it always comes to an
    end, adds nothing to the queue and, if the activities finish in their call, does not wait and does
    not end the flow (proofs; no Go counterpart). *)
From Verif Require Export Finish.
Local Open Scope Z_scope.

Section Plain.
  Local Set Default Proof Using "Type*".
  Context (E : env) (t i : nat) (tk : task) (sync noret nofail : Prop).
  Context (NSF : no_subflows E).
  Notation id := (t_id tk).

  Definition there (s : st) : Prop := ti_is s t i tk /\ is_Some (s_insts s !! i).
  (** A failing call of the activity. *)
  Definition fail_ev (e : event) : Prop := match e with EvActEnd _ _ (Some _) => ~ nofail | _ => True end.
  Definition calm (s s' : st) : Prop :=
    s_queue s' = s_queue s /\ s_nti s' = s_nti s /\
    (noret -> forall y, s_insts s !! i = Some y -> exists y', s_insts s' !! i = Some y' /\ i_force y' = i_force y) /\
    logs fail_ev s s'.
  Lemma calm_refl s : calm s s.
  Proof. split_and!; [done..|eauto|apply logs_refl]. Qed.
  Lemma calm_trans a b c : calm a b -> calm b c -> calm a c.
  Proof.
    intros (A1 & A2 & A3 & A4) (B1 & B2 & B3 & B4). split_and!; [congruence..| |by eapply logs_trans].
    intros H y Hy. destruct (A3 H y Hy) as (y1 & H1 & <-). by apply B3.
  Qed.

  (** [m] ends with a result in [Q] or panics, the latter only if [W]. *)
  Definition rs {A} (m : M A) (Q : A -> Prop) (W : Prop) : Prop := forall s, there s ->
    there (m s).2 /\ calm s (m s).2 /\ match (m s).1 with Ok a => Q a | Panic _ => W | _ => False end.

  Lemma rs_mono {A} (m : M A) (Q Q' : A -> Prop) (W W' : Prop) : rs m Q W -> (forall a, Q a -> Q' a) -> (W -> W') -> rs m Q' W'.
  Proof. intros H HQ HW s P. destruct (H s P) as (H1 & H2 & H3). split_and!; [done..|]. destruct (m s).1; auto. Qed.
  Lemma rs_ret {A} (a : A) (Q : A -> Prop) W : Q a -> rs (ret a) Q W.
  Proof. intros H s P. split_and!; [done|apply calm_refl|done]. Qed.
  Lemma rs_panic {A} m (Q : A -> Prop) (W : Prop) : W -> rs (panic m) Q W.
  Proof. intros H s P. split_and!; [done|apply calm_refl|done]. Qed.
  Lemma rs_get (Q : st -> Prop) W : (forall s, Q s) -> rs get Q W.
  Proof. intros H s P. split_and!; [done|apply calm_refl|apply H]. Qed.
  Lemma rs_bind {A B} (m : M A) (k : A -> M B) (Q1 : A -> Prop) (Q : B -> Prop) W :
    rs m Q1 W -> (forall a, Q1 a -> rs (k a) Q W) -> rs (bind m k) Q W.
  Proof.
    intros Hm Hk s P. destruct (Hm s P) as (P1 & C1 & H1). unfold bind. destruct (m s) as [[a|e| |]s1]; cbn [fst snd] in *; try done.
    destruct (Hk a H1 s1 P1) as (P2 & C2 & H2). split_and!; [done|by eapply calm_trans|done].
  Qed.
  Lemma rs_catch {A} (m : M A) h (Q : A -> Prop) (W1 W : Prop) :
    rs m Q W1 -> (W1 -> forall e, rs (h e) Q W) -> rs (catch m h) Q W.
  Proof.
    intros Hm Hh s P. destruct (Hm s P) as (P1 & C1 & H1). unfold catch. destruct (m s) as [[a|e| |]s1]; cbn [fst snd] in *; try done.
    destruct (Hh H1 e s1 P1) as (P2 & C2 & H2). split_and!; [done|by eapply calm_trans|done].
  Qed.
  Lemma rs_get_ti {B} (k : tinst -> M B) (Q : B -> Prop) W :
    (forall x, ti_inst x = i -> ti_task x = tk -> rs (k x) Q W) -> rs (bind (get_ti t) k) Q W.
  Proof.
    intros Hk s P. assert (P' := P). destruct P' as [(x & Hx & Hi & Ht) _]. unfold bind, get_ti, bind, get. rewrite Hx.
    by apply (Hk x Hi Ht).
  Qed.
  Lemma rs_get_inst {B} (k : inst -> M B) (Q : B -> Prop) W : (forall y, rs (k y) Q W) -> rs (bind (get_inst i) k) Q W.
  Proof.
    intros Hk s P. assert (P' := P). destruct P' as [_ [y Hy]]. unfold bind, get_inst, bind, get. rewrite Hy. by apply (Hk y).
  Qed.
  Lemma rs_ext {A} (f : nat -> view -> A) (Q : A -> Prop) W : (forall n v, v_task v = id -> Q (f n v)) -> rs (ext t f) Q W.
  Proof.
    intros H s P. unfold ext, tick, bind, get, modify, ret. cbn [fst snd]. split_and!; [done| |].
    - split_and!; [done..|eauto|]. exists []. done.
    - apply H. destruct P as [(x & Hx & _ & Ht) _]. unfold view_of. cbn. by rewrite Hx, Ht.
  Qed.
  Lemma rs_log e (Q : unit -> Prop) W : Q tt -> fail_ev e -> rs (log_ev e) Q W.
  Proof. intros HQ He s P. split_and!; [done| |done]. split_and!; [done..|eauto|by apply logs_log]. Qed.
  Lemma rs_upd_inst f (Q : unit -> Prop) W : Q tt -> (noret -> forall y, i_force (f y) = i_force y) -> rs (upd_inst i f) Q W.
  Proof.
    intros HQ Hf s [P [y Hy]]. split_and!; [| |done].
    - split; [done|]. cbn. rewrite lookup_alter, Hy. eauto.
    - split_and!; [done..| |by exists []]. intros H y0 Hy0. exists (f y0). cbn. rewrite lookup_alter, Hy0. cbn. by rewrite (Hf H).
  Qed.
  Lemma rs_set_values m (Q : unit -> Prop) W : Q tt -> rs (set_values E i m) Q W.
  Proof.
    intros HQ. unfold set_values, set_attrs. apply rs_get_inst. intros _. eapply rs_bind; [by apply (rs_upd_inst _ (fun _ => True))|].
    intros _ _. by apply rs_log.
  Qed.
  Lemma rs_set_value n v (Q : unit -> Prop) W : Q tt -> rs (set_value E i n v) Q W.
  Proof. apply rs_set_values. Qed.
  Lemma rs_upd_ti f (Q : unit -> Prop) W : Q tt -> (forall x, ti_inst (f x) = ti_inst x /\ ti_task (f x) = ti_task x) -> rs (upd_ti t f) Q W.
  Proof.
    intros HQ Hf s [(x & Hx & Hi & Ht) P]. split_and!; [| |done].
    - split; [|done]. exists (f x). cbn. rewrite lookup_alter, Hx. destruct (Hf x) as [-> ->]. done.
    - split_and!; [done..|eauto|by exists []].
  Qed.

  Notation any := (fun _ => True).
  Ltac own := apply rs_upd_ti; [done|intros ?; done].
  Ltac go := repeat first
    [ (apply rs_ret; exact I) | (apply rs_panic; exact I) | (apply rs_get; intros ?; exact I)
    | (apply rs_ext; intros ???; exact I) | (apply rs_set_values; exact I) | (apply rs_set_value; exact I)
    | (apply rs_log; exact I)
    | own
    | lazymatch goal with
      | |- rs (bind (get_ti t) _) _ _ => apply rs_get_ti; intros ? ?Ei ?Et; try rewrite Ei; try rewrite Et; clear Ei Et
      | |- rs (bind (get_inst _) _) _ _ => apply rs_get_inst; intros ?
      end
    | lazymatch goal with |- rs (bind _ _) _ _ => eapply (rs_bind _ _ any); [|intros ? _] end ].

  Lemma rs_icpt_id (Q : string -> Prop) W : (forall s, Q s) -> rs (icpt_id t) Q W.
  Proof. intros H. unfold icpt_id. go. by apply rs_ret. Qed.
  Lemma rs_guard {A} m (k : M (err + A)) (Q : err + A -> Prop) W :
    rs m any W -> (forall e, Q (inl e)) -> rs k Q W -> rs (guard_err m k) Q W.
  Proof. intros Hm He Hk. unfold guard_err. eapply rs_bind; [exact Hm|]. intros [e|] _; [by apply rs_ret|done]. Qed.
  Lemma rs_input_mapper : rs (apply_input_mapper E t) any True.
  Proof. unfold apply_input_mapper. eapply (rs_bind _ _ any); [by apply rs_ext|]. intros [] _; go. Qed.
  Lemma rs_input_icpt : rs (apply_input_icpt E t) any True.
  Proof. unfold apply_input_icpt. apply rs_get_ti. intros ? _ _. destruct (task_icpt E _); go. Qed.
  Lemma rs_exec_status z W : rs (set_exec_status E t z) any W.
  Proof. unfold set_exec_status. eapply (rs_bind _ _ any); [by apply rs_icpt_id|]. intros s _. destruct (task_icpt E s); go. Qed.
  Lemma rs_output_icpt : rs (apply_output_icpt E t) any True.
  Proof.
    unfold apply_output_icpt. eapply (rs_bind _ _ any); [by apply rs_icpt_id|]. intros s _. destruct (task_icpt E s); [|go].
    destruct (bool_decide _); [go|]. eapply (rs_bind _ _ any); [go|]. intros v _. cbv zeta.
    destruct (_ =? 4); [destruct (forallb _ _); go|]. destruct (_ =? 5); [|go].
    destruct (tc_out t0 !! "message") as [[]|]; go.
  Qed.
  Lemma rs_run_asserts idm mt k l : rs (run_asserts E t idm mt k l) any True.
  Proof.
    revert k. induction l as [|a l IH]; intros k; simpl; [go|].
    destruct (negb mt); [go; apply IH|]. destruct (as_empty a); [go; apply IH|].
    destruct (_ =? 1); [|go]. eapply (rs_bind _ _ any); [go|]. intros [] _; go; apply IH.
  Qed.
  Lemma rs_asserts ty : rs (apply_asserts E t ty) any True.
  Proof.
    unfold apply_asserts. eapply (rs_bind _ _ any); [by apply rs_icpt_id|]. intros s _.
    destruct (task_icpt E s); [apply rs_run_asserts|go].
  Qed.
  Lemma rs_output_mapper : rs (apply_output_mapper E t) any True.
  Proof. unfold apply_output_mapper. apply rs_get_ti. intros x Ei Et. rewrite Ei, Et. destruct (t_act tk); go. Qed.
  Lemma rs_accumulation : rs (handle_accumulation E t) any True.
  Proof.
    unfold handle_accumulation. apply rs_get_ti. intros x Ei Et. rewrite Ei, Et. apply rs_get_inst. intros y.
    cbv zeta. destruct (i_attrs y !! _) as [v|]; [destruct (e_toarr E v)|]; go.
  Qed.
  Lemma rs_finish : rs (finish_activity E t) (fun r => r <> inr false) True.
  Proof.
    unfold finish_activity. apply rs_get_ti. intros x Ei Et. rewrite Et.
    apply rs_guard; [go|done|]. apply rs_guard; [apply rs_output_icpt|done|]. apply rs_guard; [|done|].
    - destruct (accumulates tk).
      + eapply (rs_bind _ _ any); [apply rs_accumulation|]. intros [] _; [go|]. eapply (rs_bind _ _ any); [|intros; go].
        destruct (acc_apply tk); [apply rs_output_mapper|go].
      + eapply (rs_bind _ _ any); [apply rs_output_mapper|intros; go].
    - apply rs_guard; [apply rs_asserts|done|by apply rs_ret].
  Qed.

  Context (HS : sync -> sync_env false E) (HT : noret -> no_return E).
  Context (HN : nofail -> forall n v, v_task v = id -> act_sync true (e_act E n v)).

  Lemma rs_sub uri ins W : rs (start_subflow E t uri ins) any W.
  Proof.
    unfold start_subflow. eapply (rs_bind _ _ any).
    - intros s P. unfold tick, bind, get, modify, ret. cbn [fst snd]. split_and!; [done| |done]. split_and!; [done..|eauto|by exists []].
    - intros n _. destruct (e_def E n uri) eqn:He; [by edestruct NSF|go..].
  Qed.
  Lemma rs_run_act a : (sync -> act_sync false a) -> (noret -> act_noret a) -> (nofail -> act_sync true a) ->
    rs (run_act E t a) (fun r => (sync -> r = ADone \/ exists e, r = AErr e) /\ (nofail -> r = ADone)) (~ nofail).
  Proof.
    induction a as [r|n v k IH|m k IH|n v k IH|dd er k IH|dd er k IH|uri ins k1 IH1 k2 IH2]; cbn [run_act act_sync act_noret]; intros H1 HT1 H2;
      apply rs_get_ti; intros x Ei Et; try rewrite Ei.
    - apply rs_ret. split; intros H; [specialize (H1 H)|specialize (H2 H)]; destruct r; try done; eauto.
    - eapply (rs_bind _ _ any); [own|]. intros _ _. by apply IH.
    - eapply (rs_bind _ _ any); [own|]. intros _ _. by apply IH.
    - eapply (rs_bind _ _ any); [by apply rs_set_value|]. intros _ _. by apply IH.
    - eapply (rs_bind _ _ any); [|intros _ _; apply IH; intros H; first [by destruct (H1 H)|by destruct (H2 H)|by apply HT1|by destruct (HT1 H)]].
      unfold reply. apply rs_get_inst. intros y. destruct (i_handler y); [|go].
      eapply (rs_bind _ _ any); [by apply rs_upd_inst|]. intros _ _. by apply rs_log.
    - eapply (rs_bind _ _ any); [|intros _ _; apply IH; intros H; first [by destruct (H1 H)|by destruct (H2 H)|by apply HT1|by destruct (HT1 H)]].
      unfold return_. eapply (rs_bind _ _ any); [apply rs_upd_inst; [done|]; intros H; by destruct (HT1 H)|]. intros _ _. by apply rs_log.
    - eapply (rs_bind _ _ any); [apply rs_sub|].
      intros [?|] _; [apply IH1|apply IH2]; intros H; first [by destruct (H1 H)|by destruct (HT1 H)|by destruct (H2 H)].
  Qed.
  Lemma rs_call_activity : rs (call_activity E t) (fun r => sync -> r <> inr false) True.
  Proof.
    unfold call_activity. apply rs_get_ti. intros x Ei Et. rewrite Ei, Et. cbv zeta.
    eapply (rs_bind _ _ any); [by apply rs_log|]. intros _ _.
    eapply (rs_bind _ _ (fun a => (sync -> act_sync false a) /\ (noret -> act_noret a) /\ (nofail -> act_sync true a))).
    { apply rs_ext. intros n v Hv. split_and!; [intros H; by apply HS|intros H; by apply HT|intros H; by apply HN]. }
    intros a (Ha1 & Ha3 & Ha2).
    eapply (rs_bind _ _ (fun r => (sync -> r <> AWait) /\ (nofail -> r = ADone))).
    { eapply (rs_catch _ _ _ (~ nofail)).
      - eapply rs_mono; [by apply rs_run_act| |done]. cbn beta. intros r [H1 H2]. split; [|done]. intros H. by destruct (H1 H) as [->|[? ->]].
      - intros Hw m. apply rs_ret. split; [done|]. intros H. by destruct Hw. }
    intros [| |e|m] [H1 H2].
    - eapply (rs_bind _ _ any); [by apply rs_log|]. intros _ _. eapply (rs_bind _ _ any); [apply rs_exec_status|]. intros _ _. by apply rs_ret.
    - eapply (rs_bind _ _ any); [by apply rs_log|]. intros _ _. eapply (rs_bind _ _ any); [apply rs_exec_status|]. intros _ _. apply rs_ret. intros H. by destruct (H1 H).
    - eapply (rs_bind _ _ any); [apply rs_log; [done|]; intros H; by specialize (H2 H)|]. intros _ _.
      eapply (rs_bind _ _ any); [apply rs_exec_status|]. intros _ _. apply rs_get_inst. intros y.
      eapply (rs_bind _ _ any); [destruct (i_handling y); go|]. intros _ _.
      eapply (rs_bind _ _ any); [by apply rs_set_value|]. intros _ _.
      eapply (rs_bind _ _ any); [|intros _ _; by apply rs_ret].
      eapply rs_catch; [|intros; by apply rs_ret]. eapply (rs_bind _ _ any); [apply rs_asserts|]. intros _ _. by apply rs_ret.
    - eapply (rs_bind _ _ any); [apply rs_log; [done|]; intros H; by specialize (H2 H)|]. intros _ _. by apply rs_panic.
  Qed.
  Lemma rs_eval_activity : rs (eval_activity E t) (fun r => sync -> r <> inr false) False.
  Proof.
    unfold eval_activity, recover_eval. eapply (rs_catch _ _ _ True).
    2:{ intros _ m. apply rs_get_ti. intros x _ _. by apply rs_ret. }
    apply rs_get_ti. intros x Ei Et. rewrite Et. destruct (t_act tk) as [ac|]; [|by apply rs_panic].
    apply rs_guard; [|done|].
    - destruct (ac_inmap ac); [|go]. eapply (rs_bind _ _ any); [apply rs_input_mapper|]. intros; go.
    - eapply (rs_bind _ _ any); [apply rs_input_icpt|].
      assert (rs (finish_activity E t) (fun r => sync -> r <> inr false) True) as Hf by (eapply rs_mono; [apply rs_finish|done|done]).
      intros [] _; [|exact Hf]. apply rs_guard; [go|done|].
      eapply (rs_bind _ _ any); [unfold has_output_icpt; eapply (rs_bind _ _ any); [by apply rs_icpt_id|intros; go]|].
      intros [] _.
      + eapply (rs_bind _ _ any); [apply rs_exec_status|intros _ _; exact Hf].
      + eapply rs_bind; [apply rs_call_activity|]. intros [e|[]] H; [by apply rs_ret|exact Hf|by apply rs_ret].
  Qed.
  Context (HR : t_retry tk = None).
  Lemma rs_basic_eval : rs (basic_eval E t) (fun r => sync -> r <> inr EvalWait) False.
  Proof.
    unfold basic_eval. apply rs_get_ti. intros x _ _. destruct (bool_decide _); [by apply rs_ret|].
    eapply (rs_bind _ _ (fun r => sync -> r <> inr false)).
    - unfold eval_retry. eapply rs_bind; [apply rs_eval_activity|]. intros r Hr. apply rs_get_ti. intros x' _ Et. rewrite Et, HR.
      destruct r; by apply rs_ret.
    - intros [e|[]] H; apply rs_ret; [done|done|]. intros Hs. by destruct (H Hs).
  Qed.
End Plain.
