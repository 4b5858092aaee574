(** What the functions of the engine around an evaluation do to any relation between states that is
    closed under their elementary changes. No Go counterpart (proof infrastructure). *)
From Verif Require Export Local.
Local Open Scope Z_scope.

(** Events of the engine around an evaluation. *)
Definition plain_ev (e : event) : Prop :=
  match e with
  | EvAct _ _ _ _ | EvActEnd _ _ _ | EvPost _ _ | EvCond _ _ _ _ | EvReturn _ _ _ | EvResult _ _ | EvFlowStatus _ _
  | EvQDel _ _ _ | EvFlowCreated | EvSkipStep | EvRecStart | EvRecDone | EvHandlerDone => False
  | EvSet _ m _ => forall k v, m !! k = Some v -> k = "_E" \/ exists id, k = "_E." +:+ id
  | _ => True
  end.

(** The elementary changes. *)
Record ops (R : st -> st -> Prop) : Prop := mk_ops {
  o_refl : forall s, R s s;
  o_trans : forall a b c, R a b -> R b c -> R a c;
  o_log : forall e s, plain_ev e -> R s (p_log e s);
  o_inst : forall i f s, (forall y, i_status (f y) = i_status y /\ i_def (f y) = i_def y /\ i_attrs (f y) = i_attrs y) -> R s (p_inst i f s);
  o_set : forall tr i m s, plain_ev (EvSet i m tr) -> R s (p_set tr i m s);
  o_fstat : forall i z s, z = FCompleted \/ z = FFailed -> R s (p_fstat i z s);
  o_ti : forall t f s, (forall x, ti_inst (f x) = ti_inst x /\ ti_task (f x) = ti_task x /\ ti_wd (f x) = ti_wd x) -> R s (p_ti t f s);
  o_new : forall x s, R s (set_s_tis (<[s_nti s := x]> (s_tis s)) (set_s_nti (S (s_nti s)) s));
  o_else : forall s s', s_insts s' = s_insts s -> s_log s' = s_log s -> s_tis s' = s_tis s -> s_nti s' = s_nti s ->
    (exists q, s_queue s' = s_queue s ++ q) -> R s s'
}.

Section Ops.
  Local Set Default Proof Using "Type*".
  Context (E : env) (R : st -> st -> Prop) (O : ops R).

  Definition op {A} (m : M A) : Prop := forall s, R s (m s).2.
  Lemma op_ret {A} (a : A) : op (ret a).
  Proof. intros s. apply O. Qed.
  Lemma op_panic {A} msg : op (A:=A) (panic msg).
  Proof. intros s. apply O. Qed.
  Lemma op_fuel {A} : op (A:=A) out_of_fuel.
  Proof. intros s. apply O. Qed.
  Lemma op_blocked {A} : op (A:=A) (fun s => (Blocked, s)).
  Proof. intros s. apply O. Qed.
  Lemma op_get : op get.
  Proof. intros s. apply O. Qed.
  Lemma op_bind {A B} (m : M A) (k : A -> M B) : op m -> (forall a, op (k a)) -> op (bind m k).
  Proof.
    intros Hm Hk s. specialize (Hm s). unfold bind. destruct (m s) as [[a| | |] s1]; try done.
    eapply (o_trans _ O); [exact Hm|]. apply Hk.
  Qed.
  Lemma op_catch {A} (m : M A) h : op m -> (forall e, op (h e)) -> op (catch m h).
  Proof.
    intros Hm Hk s. specialize (Hm s). unfold catch. destruct (m s) as [[a|e| |] s1]; try done.
    eapply (o_trans _ O); [exact Hm|]. apply Hk.
  Qed.
  Lemma op_finally {A} (m : M A) f : op m -> op f -> op (finally m f).
  Proof.
    intros Hm Hf. unfold finally. apply op_bind.
    - apply op_catch; [apply op_bind; [done|intros; apply op_ret]|intros; apply op_ret].
    - intros r. apply op_bind; [done|]. intros _. destruct r; [apply op_panic|apply op_ret].
  Qed.
  Lemma op_iterM {A} (f : A -> M unit) l : (forall x, op (f x)) -> op (iterM f l).
  Proof. intros Hf. induction l; simpl; [apply op_ret|]. apply op_bind; auto. Qed.
  Lemma op_modify f : (forall s, s_insts (f s) = s_insts s) -> (forall s, s_log (f s) = s_log s) ->
    (forall s, s_tis (f s) = s_tis s) -> (forall s, s_nti (f s) = s_nti s) ->
    (forall s, exists q, s_queue (f s) = s_queue s ++ q) -> op (modify f).
  Proof. intros H1 H2 H3 H4 H5 s. unfold modify. apply (o_else _ O); [apply H1|apply H2|apply H3|apply H4|apply H5]. Qed.
  Lemma op_upd_inst i f : (forall y, i_status (f y) = i_status y /\ i_def (f y) = i_def y /\ i_attrs (f y) = i_attrs y) -> op (upd_inst i f).
  Proof. intros Hf s. by apply (o_inst _ O). Qed.
  Lemma op_get_ti t : op (get_ti t).
  Proof. intros s. unfold get_ti, bind, get. destruct (s_tis s !! t); apply O. Qed.
  Lemma op_get_inst t : op (get_inst t).
  Proof. intros s. unfold get_inst, bind, get. destruct (s_insts s !! t); apply O. Qed.
  Lemma op_log e : plain_ev e -> op (log_ev e).
  Proof. intros He s. by apply (o_log _ O). Qed.
  Lemma op_upd_ti t f : (forall x, ti_inst (f x) = ti_inst x /\ ti_task (f x) = ti_task x /\ ti_wd (f x) = ti_wd x) -> op (upd_ti t f).
  Proof. intros Hf s. by apply (o_ti _ O). Qed.
  Lemma op_new i tk : op (new_tinst i tk).
  Proof. intros s. unfold new_tinst. destruct (t_act tk); [|apply O]. apply (o_new _ O). Qed.

  Ltac go := repeat first
    [ apply op_ret | apply op_panic | apply op_fuel | apply op_get | apply op_get_ti | apply op_get_inst | (apply op_log; exact I)
    | (apply op_upd_ti; intros ?; split_and!; reflexivity) | apply op_new | (apply op_upd_inst; intros ?; split_and!; reflexivity) | (apply op_modify; [reflexivity..|intros ?; first [exists []; symmetry; apply app_nil_r | eexists; reflexivity]]) | (apply op_iterM; intros ?)
    | lazymatch goal with |- op (bind _ _) => apply op_bind; [|intros ?] end ].

  Lemma op_set_attrs tr i m : plain_ev (EvSet i m tr) -> op (set_attrs tr i m).
  Proof.
    intros Hm s. unfold set_attrs, bind, get_inst, bind, get. destruct (s_insts s !! i); [|apply O]. by apply (o_set _ O).
  Qed.
  Lemma op_set_value i n v : n = "_E" \/ (exists id, n = "_E." +:+ id) -> op (set_value E i n v).
  Proof. intros Hn. apply op_set_attrs. intros k v' [<- _]%lookup_singleton_Some. done. Qed.
  Lemma op_return_data i : op (get_return_data i).
  Proof. unfold get_return_data. go. destruct (i_rdata a); [go|]. destruct (d_md (i_def a)) as [[? []]|]; go. Qed.
  Lemma op_post_flow i : op (post_flow_event E i).
  Proof.
    unfold post_flow_event. destruct (e_listener E); [|go]. go. destruct (bool_decide _); [go|]. go. apply op_return_data.
  Qed.
  Lemma op_set_task_status t z : op (set_task_status t z).
  Proof. unfold set_task_status. go. Qed.
  Lemma op_track t : op (track_task t).
  Proof. unfold track_task. go. Qed.
  Lemma op_find_task i tk : op (find_or_create_task i tk).
  Proof. unfold find_or_create_task. go. destruct (i_tasks a !! _); [go|]. go. Qed.
  Lemma op_find_link i l : op (find_or_create_link i l).
  Proof. unfold find_or_create_link. go. destruct (i_links a !! _); go. Qed.
  Lemma op_from_links t : op (from_links t).
  Proof. unfold from_links. go. apply op_find_link. Qed.
  Lemma op_to_links t : op (to_links t).
  Proof. unfold to_links. go. apply op_find_link. Qed.
  Lemma op_cov c i id : op (need_cov c i id).
  Proof. unfold need_cov. destruct (ic_cov c); go. Qed.
  Lemma op_set_link i l z : op (set_link_status E i l z).
  Proof. unfold set_link_status. go. destruct (bool_decide _); [|go]. destruct (e_icpt E); [apply op_cov|go]. Qed.
  Lemma op_release i tk : op (release_task i tk).
  Proof. unfold release_task. go. Qed.
  Lemma op_schedule t : op (schedule_eval t).
  Proof. unfold schedule_eval. go. Qed.
  Lemma op_record : op (record_state E).
  Proof.
    unfold record_state. destruct (e_rec E); [|go]. go.
    - destruct (record_snapshot r); [|go]. destruct (e_ext E); go.
    - destruct (record_steps r); [|go]. destruct (e_ext E); go.
  Qed.
  Lemma op_tick : op tick.
  Proof. unfold tick. go. Qed.
  Lemma op_ext {A} t (f : nat -> view -> A) : op (ext t f).
  Proof. unfold ext. go. Qed.
  Lemma op_append t e : op (append_error_data E t e).
  Proof. unfold append_error_data. go; apply op_set_value; eauto. Qed.
  Lemma op_task_error t e : op (set_task_error E t e).
  Proof. unfold set_task_error. go; apply op_set_value; eauto. Qed.
  Lemma op_add_cov t : op (add_activity_coverage E t).
  Proof.
    unfold add_activity_coverage. destruct (e_icpt E); [|go]. go; [|apply op_cov].
    destruct (ic_collect i); go; [apply op_from_links|apply op_to_links].
  Qed.
  Lemma op_lock {A} (m : M A) : op m -> op (with_lock E m).
  Proof.
    intros Hm. unfold with_lock. destruct (e_conc E); [|done]. apply op_bind; [go|]. intros s.
    destruct (s_lock s); [apply op_blocked|]. apply op_bind; [go|]. intros _. apply op_finally; [done|go].
  Qed.
  Lemma op_settings t : op (apply_settings E t).
  Proof. unfold apply_settings. go. destruct (t_set _); [|go]. apply op_bind; [apply op_ext|]. intros []; go. Qed.
  Lemma op_enter t : op (enter t).
  Proof.
    unfold enter. go; [apply op_set_task_status|apply op_from_links|].
    destruct (scan_links _ _ _) as [[]|]; go; apply op_set_task_status.
  Qed.
  Lemma op_enter_list skip i es : (forall t, op (skip t)) -> op (enter_list E skip i es).
  Proof.
    intros Hs. induction es as [|[tk c] es IH]; simpl; [go|]. go; [apply op_find_task|].
    destruct (e_conc E && ti_sched a0); [done|]. go; [apply op_enter|]. destruct a1; [done| |].
    - go; [apply op_settings|]. destruct a1; [go|]. go; [apply op_schedule|done].
    - go; done.
  Qed.
  Lemma op_clear : op clear_tasks.
  Proof. unfold clear_tasks. go. Qed.
  Lemma op_host i : op (host_of i).
  Proof. unfold host_of. go. Qed.

  Lemma op_set_flow_status i z : z = FCompleted \/ z = FFailed -> op (set_flow_status E i z).
  Proof.
    intros Hz s. unfold set_flow_status, bind at 1, get_inst, bind at 1, get. destruct (s_insts s !! i) as [y|]; [|apply O].
    unfold ret at 1. change (R s (post_flow_event E i (p_fstat i z s)).2).
    eapply (o_trans _ O); [by apply (o_fstat _ O)|]. apply op_post_flow.
  Qed.
  Lemma op_global ent i e : (forall j es, op (ent j es)) -> op (handle_global_error E ent i e).
  Proof.
    intros He. unfold handle_global_error. go. destruct (i_handling a); [apply op_set_flow_status; by right|]. go.
    destruct (d_eh (i_def a)).
    - go; [apply op_clear|apply He].
    - go; [apply op_set_flow_status; by right|]. destruct (i =? 0)%nat; [go|]. go; [apply op_record|apply op_host|].
      destruct a3; [|go]. go. apply op_schedule.
  Qed.
  Lemma op_complete i : op (complete_flow E i).
  Proof.
    unfold complete_flow. apply op_bind; [apply op_set_flow_status; by left|]. intros _. destruct (i =? 0)%nat; [go|]. go.
    destruct (i_host a); go. apply op_schedule.
  Qed.
  Lemma op_entries i es : op (entries_of i es).
  Proof. unfold entries_of. go. destruct (resolve_entries _ _); go. Qed.
  Lemma op_eval_link t l : op (eval_link E t l).
  Proof.
    unfold eval_link. go. destruct (l_expr l); [|go]. apply op_bind; [apply op_ext|]. intros []; go.
  Qed.
  Lemma op_done_links t i ls a : op (done_links E t i ls a).
  Proof.
    revert a. induction ls as [|l ls IH]; intros a; simpl; [go|]. apply op_bind; [|intros []; [go|apply IH]].
    unfold done_link. go; [apply op_set_link|]. destruct (l_type l); go; try apply op_set_link; try apply op_eval_link.
    destruct a1 as [|[]]; go. apply op_set_link.
  Qed.
  Lemma op_beh_done t : op (beh_done E t).
  Proof.
    unfold beh_done. go; [apply op_to_links|apply op_set_task_status|]. destruct a; [go|]. apply op_bind; [apply op_done_links|].
    intros []; [go|]. go; [|apply op_entries]. destruct (da_oth d); [|go]. destruct (_ && _); go. apply op_set_link.
  Qed.
  Lemma op_beh_skip t : op (beh_skip E t).
  Proof.
    unfold beh_skip. cbv zeta. go; [apply op_to_links|apply op_set_task_status|]. destruct a; [go|]. go; [apply op_set_link|apply op_entries].
  Qed.
  Lemma op_beh_error t : op (beh_error E t).
  Proof.
    unfold beh_error. go; [apply op_to_links|]. destruct (existsb _ _); [|go]. go; [apply op_set_link|apply op_entries].
  Qed.
  Lemma op_flow_done i : op (flow_task_done i).
  Proof. unfold flow_task_done. go. Qed.
  Lemma op_done ent t : (forall j es, op (ent j es)) -> op (handle_task_done E ent t).
  Proof.
    intros He. unfold handle_task_done. apply op_bind; [go|]. intros x. cbv zeta. apply op_bind.
    { destruct (bool_decide _); go; [apply op_beh_skip|apply op_beh_done|apply op_add_cov]. }
    intros [e|[nt es]].
    - go; [apply op_append|by apply op_global].
    - go; [destruct nt; [apply op_flow_done|go]| |apply op_release]. destruct (_ || _); [apply op_complete|].
      go. apply He.
  Qed.
  Lemma op_enter_tasks n i es : op (enter_tasks E n i es).
  Proof.
    revert i es. induction n as [|n IH]; intros i es; cbn [enter_tasks]; apply op_lock, op_enter_list; intros t; [go|].
    by apply op_done.
  Qed.
  Lemma op_enter_top i es : op (enter_top E i es).
  Proof. unfold enter_top. go. apply op_enter_tasks. Qed.
  Lemma op_task_done t : op (task_done E t).
  Proof. apply op_done. intros. apply op_enter_top. Qed.
  Lemma op_handle_error t e : op (handle_task_error E t e).
  Proof.
    unfold handle_task_error. go; [apply op_set_task_status|apply op_add_cov|apply op_beh_error|]. cbv zeta. destruct (a1.1).
    - go; [apply op_task_error| |apply op_release]. destruct (a1.2); [go|]. go. apply op_enter_top.
    - go. destruct (i_handling a3).
      + go; [apply op_set_flow_status; by right|]. destruct (_ =? 0)%nat; [apply op_append|]. go; [apply op_record|].
        destruct (i_host a3); [|go]. go. apply op_schedule.
      + go; [apply op_append|]. apply op_global. intros. apply op_enter_top.
  Qed.
  Lemma op_recover t m : op (exec_recover E t m).
  Proof.
    unfold exec_recover. go. destruct (i_handling a0); [go|]. go; [apply op_append|]. apply op_global. intros. apply op_enter_top.
  Qed.
End Ops.

(** ** Two relations *)

(** The log has grown by events that [P] allows. *)
Definition logs (P : event -> Prop) (s s' : st) : Prop := exists l, s_log s' = l ++ s_log s /\ Forall P l.
Lemma logs_refl P s : logs P s s.
Proof. exists []. split; [done|constructor]. Qed.
Lemma logs_trans P a b c : logs P a b -> logs P b c -> logs P a c.
Proof. intros (l1 & H1 & F1) (l2 & H2 & F2). exists (l2 ++ l1). rewrite H2, H1, app_assoc. split; [done|]. by apply Forall_app. Qed.
Lemma logs_one (P : event -> Prop) e s s' : s_log s' = e :: s_log s -> P e -> logs P s s'.
Proof. intros Hl He. exists [e]. split; [done|]. by repeat constructor. Qed.
Lemma logs_log (P : event -> Prop) e s : P e -> logs P s (p_log e s).
Proof. intros He. exists [e]. split; [done|]. by repeat constructor. Qed.
Lemma logs_mono (P Q : event -> Prop) s s' : (forall e, P e -> Q e) -> logs P s s' -> logs Q s s'.
Proof. intros H (l & Hl & F). exists l. split; [done|]. by eapply Forall_impl. Qed.

(** The events that may happen around an evaluation. *)
Definition around_ev (e : event) : Prop := plain_ev e \/ (exists i z, e = EvFlowStatus i z).
Lemma ops_logs (P : event -> Prop) : (forall e, around_ev e -> P e) -> ops (logs P).
Proof.
  intros HP. split.
  - apply logs_refl.
  - apply logs_trans.
  - intros e s He. apply logs_log, HP. by left.
  - intros i f s _. exists []. split; [done|constructor].
  - intros tr i m s Hm. eapply logs_one; [done|]. apply HP. by left.
  - intros i z s _. eapply logs_one; [done|]. apply HP. right. eauto.
  - intros t f s _. exists []. split; [done|constructor].
  - intros x s. exists []. split; [done|constructor].
  - intros s s' _ Hl _ _. exists []. split; [done|constructor].
Qed.

(** The main flow is completed or failed. *)
Definition over (s : st) : Prop := exists y, s_insts s !! 0%nat = Some y /\ i_status y <> FActive.
Lemma ops_over : ops (fun s s' => over s -> over s').
Proof.
  split; auto.
  - intros i f s Hf (y & Hy & Ha). destruct (decide (i = 0%nat)) as [->|].
    + exists (f y). rewrite p_inst_at, Hy. split; [done|]. by rewrite (proj1 (Hf y)).
    + exists y. by rewrite p_inst_ne.
  - intros tr i m s _ (y & Hy & Ha). destruct (decide (i = 0%nat)) as [->|].
    + exists (set_i_attrs (m ∪ i_attrs y) y). cbn. by rewrite lookup_alter, Hy.
    + exists y. cbn. by rewrite lookup_alter_ne.
  - intros i z s Hz (y & Hy & Ha). unfold p_fstat. destruct (decide (i = 0%nat)) as [->|].
    + exists (set_i_status z y). cbn. rewrite lookup_alter, Hy. split; [done|]. cbn. destruct Hz as [->| ->]; done.
    + exists y. cbn. by rewrite lookup_alter_ne.
  - intros s s' Hi _ _ _. unfold over. by rewrite Hi.
Qed.

(** The working data of the task instances is kept. *)
Definition wd_kept (s s' : st) : Prop := (s_nti s <= s_nti s')%nat /\
  forall u x, (u < s_nti s)%nat -> s_tis s !! u = Some x ->
    exists x', s_tis s' !! u = Some x' /\ ti_inst x' = ti_inst x /\ ti_task x' = ti_task x /\ ti_wd x' = ti_wd x.
Lemma wd_kept_same s s' : s_tis s' = s_tis s -> s_nti s' = s_nti s -> wd_kept s s'.
Proof. intros Ht Hn. split; [by rewrite Hn|]. intros u x _ Hx. rewrite Ht. eauto. Qed.
Lemma ops_wd : ops wd_kept.
Proof.
  split; try (intros; by apply wd_kept_same).
  - intros a b c [N1 H1] [N2 H2]. split; [lia|]. intros u x Hu Hx. destruct (H1 u x Hu Hx) as (x1 & Hx1 & A1 & A2 & A3).
    destruct (H2 u x1 ltac:(lia) Hx1) as (x2 & Hx2 & B1 & B2 & B3). exists x2. split_and!; congruence.
  - intros t f s Hf. split; [done|]. intros u x Hu Hx. cbn. destruct (decide (t = u)) as [->|].
    + exists (f x). rewrite lookup_alter, Hx. split; [done|]. apply Hf.
    + exists x. rewrite lookup_alter_ne by done. done.
  - intros x s. split; [cbn; lia|]. intros u x' Hu Hx'. exists x'. cbn. rewrite lookup_insert_ne by lia. done.
Qed.

(** ** Starting a subflow, and an activity *)

(** The events that may happen when a subflow is started. *)
Definition start_ev (e : event) : Prop := around_ev e \/ exists i m b, e = EvSet i m b.
Lemma start_set i m b : start_ev (EvSet i m b).
Proof. right. eauto. Qed.

Section Start.
  Local Set Default Proof Using "Type*".
  Context (E : env) (P : event -> Prop) (HP : forall e, around_ev e -> P e) (HS : forall i m b, P (EvSet i m b)).
  Notation op := (op (logs P)).
  Let O := ops_logs P HP.

  Lemma lg_set tr i m : op (set_attrs tr i m).
  Proof.
    intros s. unfold set_attrs, bind, get_inst, bind, get. destruct (s_insts s !! i); [|apply logs_refl]. by eapply (logs_one P (EvSet i m tr)).
  Qed.
  Lemma lg_start_instance i m : op (start_instance E i m).
  Proof.
    unfold start_instance. apply (op_bind _ O); [apply (op_get_inst _ O)|]. intros x.
    apply (op_bind _ O).
    { unfold parent_info. apply (op_bind _ O); [apply (op_host _ O)|]. intros []; [|apply (op_ret _ O)].
      apply (op_bind _ O); [apply (op_get_ti _ O)|]. intros. apply (op_bind _ O); [apply (op_get_inst _ O)|]. intros. apply (op_ret _ O). }
    intros h. apply (op_bind _ O); [apply (lg_set _ _ _)|]. intros _.
    apply (op_bind _ O); [destruct (d_md (i_def x)); [apply (lg_set _ _ _)|apply (op_ret _ O)]|]. intros _.
    apply (op_bind _ O); [apply (lg_set _ _ _)|]. intros _. apply (op_bind _ O).
    { intros s. unfold set_flow_status, bind at 1, get_inst, bind at 1, get. destruct (s_insts s !! i) as [y|]; [|apply logs_refl].
      unfold ret at 1. change (logs P s (post_flow_event E i (p_fstat i FActive s)).2).
      eapply logs_trans; [|apply (op_post_flow E _ O)]. apply (logs_one P (EvFlowStatus i FActive)); [done|]. apply HP. right. eauto. }
    intros _. apply (op_bind _ O); [apply (op_enter_top _ _ O)|]. intros. apply (op_ret _ O).
  Qed.
  Lemma lg_start_subflow t uri ins : op (start_subflow E t uri ins).
  Proof.
    unfold start_subflow. apply (op_bind _ O); [apply (op_tick _ O)|]. intros n. destruct (e_def E n uri); [|apply (op_ret _ O)..].
    apply (op_bind _ O).
    { unfold new_embedded. apply (op_bind _ O); [apply (op_get _ O)|]. intros s. apply (op_bind _ O); [apply (op_get_ti _ O)|]. intros x.
      apply (op_bind _ O); [|intros; apply (op_bind _ O); [by apply (op_log _ O)|intros; apply (op_ret _ O)]].
      intros s0. exists []. split; [done|constructor]. }
    intros i. apply (op_bind _ O); [apply lg_start_instance|]. intros. apply (op_bind _ O); [|intros; apply (op_ret _ O)].
    destruct (e_icpt E); [|apply (op_ret _ O)]. apply (op_bind _ O); [apply (op_get_ti _ O)|]. intros. apply (op_cov _ O).
  Qed.
End Start.
Section Act.
  Local Set Default Proof Using "Type*".
  Context (E : env) (P : event -> Prop) (HP : forall e, around_ev e -> P e) (HS : forall i m b, P (EvSet i m b))
    (HR : forall i d e, P (EvReturn i d e)) (HD : forall d e, P (EvResult d e)).
  Notation op := (op (logs P)).
  Let O := ops_logs P HP.
  Lemma lg_run_act t a : op (run_act E t a).
  Proof.
    induction a as [r|n v k IH|m k IH|n v k IH|d e k IH|d e k IH|uri ins k1 IH1 k2 IH2]; cbn [run_act];
      (apply (op_bind _ O); [apply (op_get_ti _ O)|]; intros x).
    - apply (op_ret _ O).
    - apply (op_bind _ O); [by apply (op_upd_ti _ O)|]. auto.
    - apply (op_bind _ O); [by apply (op_upd_ti _ O)|]. auto.
    - apply (op_bind _ O); [by apply lg_set|]. auto.
    - apply (op_bind _ O); [|auto]. unfold reply. apply (op_bind _ O); [apply (op_get_inst _ O)|]. intros y.
      destruct (i_handler y); [|apply (op_ret _ O)]. apply (op_bind _ O); [by apply (op_upd_inst _ O)|].
      intros _ s. by apply logs_log.
    - apply (op_bind _ O); [|auto]. unfold return_. apply (op_bind _ O); [by apply (op_upd_inst _ O)|].
      intros _ s. by apply logs_log.
    - apply (op_bind _ O); [by apply lg_start_subflow|]. intros []; auto.
  Qed.
End Act.
