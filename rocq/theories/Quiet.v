(** What the evaluation of a task (Eval and PostEval of its behaviour) can change: proofs about any
    relation between states that is closed under the elementary changes an evaluation makes. No Go
    counterpart (proof infrastructure). *)
From Verif Require Export SpecVal Reach.
Local Open Scope Z_scope.

(** Events about interceptors. *)
Definition check_ev (e : event) : Prop :=
  match e with EvIcpt _ _ | EvAssert _ _ _ => True | _ => False end.
(** Events the behaviours log themselves. *)
Definition eval_ev (i : nat) (id : string) (e : event) : Prop :=
  match e with EvCond i' id' _ _ | EvPost i' id' => i' = i /\ id' = id | _ => False end.
(** Changes of the data of a task instance. *)
Definition ti_own (f : tinst -> tinst) : Prop :=
  forall x, ti_inst (f x) = ti_inst x /\ ti_task (f x) = ti_task x /\ ti_status (f x) = ti_status x /\
    ti_sched (f x) = ti_sched x /\ ti_rerr (f x) = ti_rerr x /\ ti_set (f x) = ti_set x.

(** The names of attributes an evaluation of task [id] assigns itself: its error, its outputs one by one. *)
Definition eval_names (id : string) (m : vmap) : Prop :=
  forall k v, m !! k = Some v ->
    k = "_E" \/ k = "_E." +:+ id \/ exists n, k = "_A." +:+ id +:+ "." +:+ n.
Lemma eval_names_one id k v :
  k = "_E" \/ k = "_E." +:+ id \/ (exists n, k = "_A." +:+ id +:+ "." +:+ n) -> eval_names id {[ k := v ]}.
Proof. intros H k' v' [<- _]%lookup_singleton_Some. done. Qed.
Lemma eval_names_outputs id outs o : eval_names id (mapped_outputs id outs o).
Proof.
  intros k v. unfold mapped_outputs. destruct outs as [ns|]; [|by rewrite lookup_empty].
  intros H%elem_of_list_to_map_2. apply elem_of_list_omap in H as (n & _ & H). destruct (o !! n); [|done]. injection H as <- _. eauto.
Qed.

(** Unused heap addresses. *)
Definition okq (s : st) : Prop :=
  (forall u, (s_nti s <= u)%nat -> s_tis s !! u = None) /\
  (forall j, (s_sfctr s < j)%nat -> s_insts s !! j = None).
Lemma fresh_okq s : fresh s -> okq s.
Proof. by intros (A & B & _). Qed.
Lemma okq_inst j f s : okq s -> okq (p_inst j f s).
Proof.
  intros [O1 O2]. split; [done|]. intros k Hk. cbn in *. specialize (O2 k Hk).
  destruct (decide (j = k)) as [->|]; [by rewrite lookup_alter, O2|by rewrite lookup_alter_ne].
Qed.
Lemma okq_ti u f s : okq s -> okq (p_ti u f s).
Proof.
  intros [O1 O2]. split; [|done]. intros k Hk. cbn in *. specialize (O1 k Hk).
  destruct (decide (u = k)) as [->|]; [by rewrite lookup_alter, O1|by rewrite lookup_alter_ne].
Qed.

Section Eval.
  Local Set Default Proof Using "Type*".
  Context (E : env) (t i : nat) (tk : task) (R : st -> st -> Prop).
  Notation id := (t_id tk).
  Notation P := (fun s => ti_is s t i tk /\ okq s).

  (** The elementary changes: of all functions, *)
  Record leaves0 : Prop := mk_leaves0 {
    lv_refl : forall s, R s s;
    lv_trans : forall a b c, R a b -> R b c -> R a c;
    lv_tick : forall s, P s -> R s (set_s_tick (S (s_tick s)) s);
    lv_log : forall e s, P s -> check_ev e -> R s (p_log e s);
    lv_set : forall m s, P s -> is_Some (s_insts s !! i) -> eval_names id m -> R s (p_set (e_track E) i m s);
    lv_ti : forall f s, P s -> ti_own f -> (forall x, ti_wd (f x) = ti_wd x) -> R s (p_ti t f s)
  }.
  (** of collecting the outputs, *)
  Record leavesA : Prop := mk_leavesA {
    lv_acc : forall v s, P s -> is_Some (s_insts s !! i) -> R s (p_set (e_track E) i {[ "_A." +:+ id := v ]} s)
  }.
  (** of the calls an activity makes, *)
  Record leaves1 : Prop := mk_leaves1 {
    lv_reply : forall d e s, P s -> R s (reply i d e s).2;
    lv_return : forall d e s, P s -> R s (return_ i d e s).2;
    lv_sub : forall uri ins s, P s -> (forall n, is_Some (ins !! n) -> gives E n) -> R s (start_subflow E t uri ins s).2 /\ P (start_subflow E t uri ins s).2;
    lv_scope : forall n v s, P s -> is_Some (s_insts s !! i) -> scoped E n -> R s (p_set (e_track E) i {[ n := v ]} s)
  }.
  (** of a call of an activity, *)
  Record leaves2 : Prop := mk_leaves2 {
    lv_act : forall ins it s x, P s -> s_tis s !! t = Some x -> ins = ti_in x -> it = ti_wd x !! "iteration" ->
      R s (p_log (EvAct i id ins it) s);
    lv_actend : forall e s, P s -> R s (p_log (EvActEnd i id e) s)
  }.
  (** and of the behaviours. *)
  Record leaves3 : Prop := mk_leaves3 {
    lv_evs : forall e s, P s -> eval_ev i id e -> R s (p_log e s);
    lv_wd : forall k w s, P s -> R s (p_ti t (fun x => set_ti_wd (<[k := w]> (ti_wd x)) x) s);
    lv_end : forall s x z, P s -> s_tis s !! t = Some x -> z = TFailed \/ z = TWaiting \/ z = TDone ->
      t_type tk <> TBasic -> R s (p_tstat t x z s)
  }.
  Record leaves : Prop := mk_leaves { lv0 : leaves0; lvA : leavesA; lv1 : leaves1; lv2 : leaves2; lv3 : leaves3 }.
  Context (L : leaves0).

  Definition rq {A} (m : M A) : Prop := forall s, P s -> R s (m s).2 /\ P (m s).2.

  Lemma rq_ret {A} (a : A) : rq (ret a).
  Proof. intros s H. split; [apply L|done]. Qed.
  Lemma rq_panic {A} msg : rq (A:=A) (panic msg).
  Proof. intros s H. split; [apply L|done]. Qed.
  Lemma rq_fuel {A} : rq (A:=A) out_of_fuel.
  Proof. intros s H. split; [apply L|done]. Qed.
  Lemma rq_get : rq get.
  Proof. intros s H. split; [apply L|done]. Qed.
  Lemma rq_bind {A B} (m : M A) (k : A -> M B) : rq m -> (forall a, rq (k a)) -> rq (bind m k).
  Proof.
    intros Hm Hk s H. destruct (Hm s H) as [H1 H2]. unfold bind.
    destruct (m s) as [[a| | |]s1]; simpl in *; [|done..].
    destruct (Hk a s1 H2) as [H3 H4]. split; [by eapply (lv_trans L)|done].
  Qed.
  Lemma rq_get_bind {B} (k : st -> M B) : (forall s, P s -> R s (k s s).2 /\ P (k s s).2) -> rq (bind get k).
  Proof. intros Hk s H. unfold bind, get. by apply Hk. Qed.
  Lemma rq_catch {A} (m : M A) h : rq m -> (forall e, rq (h e)) -> rq (catch m h).
  Proof.
    intros Hm Hh s H. destruct (Hm s H) as [H1 H2]. unfold catch.
    destruct (m s) as [[a|e| |]s1]; simpl in *; [done| |done..].
    destruct (Hh e s1 H2) as [H3 H4]. split; [by eapply (lv_trans L)|done].
  Qed.
  Lemma rq_finally {A} (m : M A) f : rq m -> rq f -> rq (finally m f).
  Proof.
    intros Hm Hf. unfold finally. apply rq_bind.
    - apply rq_catch; [apply rq_bind; [done|intros; apply rq_ret]|intros; apply rq_ret].
    - intros r. apply rq_bind; [done|]. intros _. destruct r; [apply rq_panic|apply rq_ret].
  Qed.
  Lemma rq_get_ti {B} (k : tinst -> M B) :
    (forall x, ti_inst x = i -> ti_task x = tk -> rq (k x)) -> rq (bind (get_ti t) k).
  Proof.
    intros Hk s H. unfold bind, get_ti, bind, get. assert (H' := H). destruct H' as [(x & Hx & Hi & Ht) _].
    rewrite Hx. unfold ret. by apply Hk.
  Qed.
  Lemma rq_get_ti_at {B} (k : tinst -> M B) :
    (forall x s, ti_inst x = i -> ti_task x = tk -> s_tis s !! t = Some x -> P s -> R s (k x s).2 /\ P (k x s).2) ->
    rq (bind (get_ti t) k).
  Proof.
    intros Hk s H. unfold bind, get_ti, bind, get. assert (H' := H). destruct H' as [(x & Hx & Hi & Ht) _].
    rewrite Hx. unfold ret. by apply Hk.
  Qed.
  Lemma rq_get_inst {B} j (k : inst -> M B) : (forall y, rq (k y)) -> rq (bind (get_inst j) k).
  Proof.
    intros Hk s H. unfold bind, get_inst, bind, get. destruct (s_insts s !! j); [by apply Hk|].
    split; [apply L|done].
  Qed.
  Lemma rq_tick : rq tick.
  Proof. intros s H. unfold tick, bind, get, modify, ret. simpl. split; [by apply (lv_tick L)|done]. Qed.
  Lemma rq_ext {A} (f : nat -> view -> A) : rq (ext t f).
  Proof.
    unfold ext. apply rq_bind; [apply rq_tick|]. intros n. apply rq_bind; [apply rq_get|]. intros; apply rq_ret.
  Qed.
  Lemma rq_ext_bind {A B} (f : nat -> view -> A) (k : A -> M B) : (forall n v, rq (k (f n v))) -> rq (bind (ext t f) k).
  Proof.
    intros Hk s H. unfold ext, tick, bind, get, modify, ret.
    destruct (Hk (s_tick s) (view_of (set_s_tick (S (s_tick s)) s) t) (set_s_tick (S (s_tick s)) s)) as [H1 H2]; [done|].
    split; [|exact H2]. eapply (lv_trans L); [by apply (lv_tick L)|exact H1].
  Qed.
  Lemma rq_log e : check_ev e -> rq (log_ev e).
  Proof. intros He s H. unfold log_ev, modify. split; [by apply (lv_log L)|done]. Qed.
  Lemma rq_set_values m : eval_names id m -> rq (set_values E i m).
  Proof.
    intros Hm s H. unfold set_values, set_attrs, bind, get_inst, bind, get.
    destruct (s_insts s !! i) as [y|] eqn:Hy; [|split; [apply L|done]].
    split; [by apply (lv_set L); eauto|]. destruct H as [H Ho]. split; [done|]. by apply okq_inst.
  Qed.
  Lemma rq_set_value n v :
    n = "_E" \/ n = "_E." +:+ id \/ (exists n', n = "_A." +:+ id +:+ "." +:+ n') -> rq (set_value E i n v).
  Proof. intros H. apply rq_set_values. by apply eval_names_one. Qed.
  Lemma rq_upd_ti f : ti_own f -> (forall x, ti_wd (f x) = ti_wd x) -> rq (upd_ti t f).
  Proof.
    intros Hf Hw s H. unfold upd_ti, modify. simpl. split; [by apply (lv_ti L)|].
    destruct H as [(x & Hx & <- & <-) Ho]. split; [|by apply okq_ti]. exists (f x). cbn. rewrite lookup_alter, Hx.
    destruct (Hf x) as (-> & -> & _). done.
  Qed.
  (** *** The functions of the evaluation *)
  Ltac own := apply rq_upd_ti; [intros ?; by split_and!|done].
  Ltac go := repeat first
    [ apply rq_ret | apply rq_panic | apply rq_fuel | apply rq_get | apply rq_ext | (apply rq_set_values; apply eval_names_outputs) | (apply rq_set_value; by eauto)
    | (apply rq_log; exact I)
    | own
    | lazymatch goal with
      | |- rq (bind (get_ti t) _) => apply rq_get_ti; intros ? ?Ei ?Et; try rewrite Ei; try rewrite Et; clear Ei Et
      | |- rq (bind (get_inst _) _) => apply rq_get_inst; intros ?
      end
    | lazymatch goal with |- rq (bind _ _) => apply rq_bind; [|intros] end ].

  Lemma rq_icpt_id {B} (k : string -> M B) : (forall s, rq (k s)) -> rq (bind (icpt_id t) k).
  Proof. intros Hk. apply rq_bind; [|done]. unfold icpt_id. go. Qed.
  Lemma rq_guard {A} m (k : M (err + A)) : rq m -> rq k -> rq (guard_err m k).
  Proof. intros Hm Hk. unfold guard_err. go; [done|]. by destruct a; [apply rq_ret|]. Qed.
  Lemma rq_input_mapper : rq (apply_input_mapper E t).
  Proof. unfold apply_input_mapper. apply rq_bind; [apply rq_ext|]. intros []; go. Qed.
  Lemma rq_input_icpt : rq (apply_input_icpt E t).
  Proof.
    unfold apply_input_icpt. apply rq_get_ti. intros ? _ _. destruct (task_icpt E _); go.
  Qed.
  Lemma rq_exec_status z : rq (set_exec_status E t z).
  Proof. unfold set_exec_status. apply rq_icpt_id. intros s. destruct (task_icpt E s); go. Qed.
  Lemma rq_output_icpt : rq (apply_output_icpt E t).
  Proof.
    unfold apply_output_icpt. apply rq_icpt_id. intros s. destruct (task_icpt E s); [|go].
    destruct (bool_decide _); [go|]. apply rq_bind; [go|]. intros v.
    destruct (_ =? 4); [destruct (forallb _ _); go|]. destruct (_ =? 5); [|go].
    destruct (tc_out t0 !! "message") as [[]|]; go.
  Qed.
  Lemma rq_run_asserts idm mt k l : rq (run_asserts E t idm mt k l).
  Proof.
    revert k. induction l as [|a l IH]; intros k; simpl; [go|].
    destruct (negb mt); [go; apply IH|]. destruct (as_empty a); [go; apply IH|].
    destruct (_ =? 1); [|go]. apply rq_bind; [go|]. intros []; go; apply IH.
  Qed.
  Lemma rq_asserts ty : rq (apply_asserts E t ty).
  Proof. unfold apply_asserts. apply rq_icpt_id. intros s. destruct (task_icpt E s); [apply rq_run_asserts|go]. Qed.
  Lemma rq_output_mapper : rq (apply_output_mapper E t).
  Proof. unfold apply_output_mapper. apply rq_get_ti. intros x Ei Et; try rewrite Ei; try rewrite Et; clear Ei Et. destruct (t_act tk); go. Qed.
  Section Acc.
  Context (LA : leavesA).
  Lemma rq_set_all v : rq (set_value E i ("_A." +:+ id) v).
  Proof.
    intros s H. unfold set_value, set_values, set_attrs, bind, get_inst, bind, get.
    destruct (s_insts s !! i) as [y|] eqn:Hy; [|split; [apply L|done]].
    split; [by apply (lv_acc LA); eauto|]. destruct H as [H Ho]. split; [done|]. by apply okq_inst.
  Qed.
  Lemma rq_accumulation : rq (handle_accumulation E t).
  Proof.
    unfold handle_accumulation. apply rq_get_ti. intros x Ei Et; try rewrite Ei; try rewrite Et; clear Ei Et. apply rq_get_inst. intros y.
    destruct (i_attrs y !! _) as [v|]; [destruct (e_toarr E v)|]; go; apply rq_set_all.
  Qed.
  Lemma rq_finish : rq (finish_activity E t).
  Proof.
    unfold finish_activity. apply rq_get_ti. intros x Ei Et; try rewrite Ei; try rewrite Et; clear Ei Et.
    apply rq_guard; [apply rq_ext|]. apply rq_guard; [apply rq_output_icpt|]. apply rq_guard.
    - destruct (accumulates tk).
      + apply rq_bind; [by apply rq_accumulation|]. intros []; [go|]. apply rq_bind; [|go].
        destruct (acc_apply tk); [apply rq_output_mapper|go].
      + apply rq_bind; [apply rq_output_mapper|go].
    - apply rq_guard; [apply rq_asserts|go].
  Qed.
  End Acc.
  Lemma rq_recover m : rq m -> rq (recover_eval t m).
  Proof. intros Hm. unfold recover_eval. apply rq_catch; [done|]. intros e. go. Qed.

  (** *** Working data and conditions *)
  Section Beh0.
  Context (L3 : leaves3).
  Lemma rq_ev e : eval_ev i id e -> rq (log_ev e).
  Proof. intros He s H. unfold log_ev, modify. split; [by apply (lv_evs L3)|done]. Qed.
  Lemma rq_end z : z = TFailed \/ z = TWaiting \/ z = TDone -> t_type tk <> TBasic -> rq (set_task_status t z).
  Proof.
    intros Hz Hb. unfold set_task_status. apply rq_get_ti_at. intros x s Hi Ht Hx H.
    unfold bind, upd_ti, modify, log_ev, modify. simpl. split.
    - exact (lv_end L3 s x z H Hx Hz Hb).
    - split; [|by apply (okq_ti t (set_ti_status z)), H]. exists (set_ti_status z x). cbn. by rewrite lookup_alter, Hx.
  Qed.
  Lemma rq_set_wd k w : rq (set_wd t k w).
  Proof.
    intros s H. unfold set_wd, upd_ti, modify. simpl. split; [by apply (lv_wd L3)|].
    destruct H as [(x & Hx & <- & <-) Ho]. split; [|by apply okq_ti]. eexists. cbn. rewrite lookup_alter, Hx. done.
  Qed.
  Lemma rq_retry_value c : rq (retry_value E t c).
  Proof. destruct c as [[]|]; simpl; [|go..]. apply rq_bind; [go|]. intros []; go. Qed.
  Lemma rq_retry_data rc : rq (retry_data E t rc).
  Proof.
    unfold retry_data. apply rq_get_ti. intros x _ _. destruct (ti_wd x !! _) as [[]|]; try go.
    - apply rq_retry_value.
    - destruct a; [go|]. apply rq_bind; [apply rq_retry_value|]. intros []; [go|].
      apply rq_bind; [apply rq_set_wd|go].
  Qed.
  Lemma rq_init_index : rq (init_index t).
  Proof. unfold init_index. apply rq_get_ti. intros x _ _. destruct (ti_wd x !! _); apply rq_set_wd. Qed.
  Lemma rq_update_index : rq (update_index t).
  Proof.
    unfold update_index. apply rq_get_ti. intros x _ _. destruct (ti_wd x !! _) as [[]|]; try go; apply rq_set_wd.
  Qed.
  Lemma rq_check_cond : rq (check_cond E t).
  Proof.
    unfold check_cond. apply rq_get_ti. intros x Ei Et; try rewrite Et; try rewrite Ei; clear Et Ei. destruct (t_loop tk) as [[[]]|]; try go.
    destruct a as [v| |]; [|go..]. apply rq_bind; [by apply rq_ev|]. intros _. destruct v as [|[]| | | | |]; go.
  Qed.
  End Beh0.
  (** *** Calling an activity *)
  Section Act1.
  Context (L1 : leaves1).
  Lemma rq_reply d e : rq (reply i d e).
  Proof.
    intros s H. split; [by apply (lv_reply L1)|]. unfold reply, bind, get_inst, bind, get.
    destruct (s_insts s !! i); [|done]. unfold ret. destruct (i_handler _); [|done].
    destruct H as [H Ho]. split; [done|]. by apply okq_inst.
  Qed.
  Lemma rq_return d e : rq (return_ i d e).
  Proof. intros s H. split; [by apply (lv_return L1)|]. destruct H as [H Ho]. split; [done|]. by apply okq_inst. Qed.
  Lemma rq_sub uri ins : (forall n, is_Some (ins !! n) -> gives E n) -> rq (start_subflow E t uri ins).
  Proof. intros Hg s H. by apply (lv_sub L1). Qed.

  Lemma rq_run_act a : (forall n, act_scope n a -> scoped E n) -> (forall n, act_gives n a -> gives E n) -> rq (run_act E t a).
  Proof.
    induction a; intros Hsc Hgv; cbn [act_scope act_gives] in Hsc, Hgv; simpl; go; auto; try first [apply rq_reply|apply rq_return|apply rq_sub; by auto].
    - intros s H. unfold set_value, set_values, set_attrs, bind, get_inst, bind, get.
      destruct (s_insts s !! i) as [y|] eqn:Hy; [|split; [apply L|done]].
      split; [apply (lv_scope L1); eauto|]. destruct H as [H Ho]. split; [done|]. by apply okq_inst.
    - match goal with |- context [match ?o with Some _ => _ | None => _ end] => destruct o end; auto.
  Qed.

  Section Act2.
  Context (L2 : leaves2).
  Lemma rq_then_act {A} (k : tinst -> M A) :
    (forall x, ti_inst x = i -> ti_task x = tk -> rq (k x)) ->
    rq (x <- get_ti t; log_ev (EvAct i id (ti_in x) (ti_wd x !! "iteration")) ;; k x).
  Proof.
    intros Hk. apply rq_get_ti_at. intros x s Hi Ht Hx H. unfold bind, log_ev, modify.
    change (set_s_log _ s) with (p_log (EvAct i id (ti_in x) (ti_wd x !! "iteration")) s).
    destruct (Hk x Hi Ht (p_log (EvAct i id (ti_in x) (ti_wd x !! "iteration")) s)) as [H1 H2]; [done|]. split; [|done].
    eapply (lv_trans L); [|exact H1]. by eapply (lv_act L2).
  Qed.
  Lemma rq_actend e : rq (log_ev (EvActEnd i id e)).
  Proof. intros s H. unfold log_ev, modify. split; [by apply (lv_actend L2)|done]. Qed.
  Lemma rq_call_activity : rq (call_activity E t).
  Proof.
    intros s H. assert (forall m : M (err + bool), rq m -> m s = call_activity E t s ->
      R s (call_activity E t s).2 /\ P (call_activity E t s).2) as Hc.
    { intros m Hm <-. by apply Hm. }
    destruct H as [(x & Hx & Hi & Ht) Ho].
    eapply (Hc (x <- get_ti t; log_ev (EvAct i id (ti_in x) (ti_wd x !! "iteration")) ;;
      a <- ext t (e_act E); r <- catch (run_act E t a) (fun m => ret (APanic m)); match r with
  | ADone => log_ev (EvActEnd i id None) ;; set_exec_status E t 1 ;; ret (inr true)
  | AWait => log_ev (EvActEnd i id None) ;; set_exec_status E t 1 ;; ret (inr false)
  | APanic m => log_ev (EvActEnd i id (Some (EEval (t_name tk) "unhandled" m))) ;; panic m
  | AErr e0 =>
      let e := name_err (t_name tk) e0 in
      log_ev (EvActEnd i id (Some e)) ;;
      set_exec_status E t 2 ;;
      y <- get_inst i;
      (if i_handling y then ret tt else set_value E i "_E" (error_obj id e)) ;;
      set_value E i ("_E." +:+ id) (error_obj id e) ;;
      catch (apply_asserts E t 2 ;; ret tt) (fun _ => ret tt) ;;
      ret (inl e)
  end)).
    - apply rq_then_act. intros x' _ _. apply rq_ext_bind. intros j v. apply rq_bind.
      { apply rq_catch; [apply rq_run_act; intros n Hn; exists j, v; by left|intros; apply rq_ret]. }
      intros [].
      + apply rq_bind; [apply rq_actend|]. intros _. go. apply rq_exec_status.
      + apply rq_bind; [apply rq_actend|]. intros _. go. apply rq_exec_status.
      + cbv zeta. apply rq_bind; [apply rq_actend|]. intros _. apply rq_bind; [apply rq_exec_status|]. intros _.
        apply rq_get_inst. intros y. apply rq_bind; [destruct (i_handling y); go|]. intros _.
        apply rq_bind; [go|]. intros _. apply rq_bind; [|go].
        apply rq_catch; [apply rq_bind; [apply rq_asserts|go]|go].
      + apply rq_bind; [apply rq_actend|]. go.
    - unfold call_activity. unfold bind at 1, get_ti, bind at 1, get. symmetry.
      unfold bind at 1, bind at 1. rewrite Hx. unfold ret at 1. rewrite Hi, Ht. done.
  Qed.
  Section ActA.
  Context (LA : leavesA).
  Lemma rq_eval_activity : rq (eval_activity E t).
  Proof.
    unfold eval_activity. apply rq_recover. apply rq_get_ti. intros x Ei Et; try rewrite Ei; try rewrite Et; clear Ei Et.
    destruct (t_act tk) as [ac|]; [|go]. apply rq_guard.
    - destruct (ac_inmap ac); [|go]. apply rq_bind; [apply rq_input_mapper|]. intros; go.
    - apply rq_bind; [apply rq_input_icpt|]. intros [|]; [|by apply rq_finish].
      apply rq_guard; [apply rq_ext|]. apply rq_bind; [unfold has_output_icpt; apply rq_icpt_id; intros; go|].
      intros [|].
      + apply rq_bind; [apply rq_exec_status|intros; by apply rq_finish].
      + apply rq_bind; [apply rq_call_activity|]. intros [|[|]]; [go|by apply rq_finish|go].
  Qed.

  Section Act3.
  Context (L3 : leaves3).
  Lemma rq_post_eval_activity : rq (post_eval_activity E t).
  Proof.
    unfold post_eval_activity. apply rq_recover. apply rq_get_ti. intros x Ei Et; try rewrite Ei; try rewrite Et; clear Ei Et. cbv zeta.
    apply rq_ext_bind. intros j v. apply rq_bind.
    - destruct (e_post E j v) as [p|] eqn:Hp; [|go]. apply rq_bind; [by apply (rq_ev L3)|]. intros _. apply rq_bind; [apply rq_run_act; intros n Hn; exists j, v; eauto|]. intros []; go.
    - intros [|d]; [go|]. apply rq_get_ti. intros y _ Et; try rewrite Et; clear Et. destruct (ti_rerr y); [go|]. destruct d; [|go].
      apply rq_guard; [apply rq_output_icpt|]. apply rq_guard; [|apply rq_guard; [apply rq_asserts|go]].
      destruct (accumulates tk); [by apply rq_accumulation|]. apply rq_bind; [apply rq_output_mapper|go].
  Qed.
  Lemma rq_retry_loop n r : rq (retry_loop E n t r).
  Proof.
    revert r. induction n as [|n IH]; intros r; simpl; apply rq_get_ti; intros x _ Et; try rewrite Et; clear Et;
      (destruct r as [e|]; [|go]); (destruct (t_retry tk) as [rc|]; [|go]); (destruct (retriable e); [|go]);
      (apply rq_bind; [apply (rq_retry_data L3)|]); intros [|[c iv]]; try go;
      destruct (0 <? c); try go.
    - apply (rq_set_wd L3).
    - apply rq_eval_activity.
    - apply IH.
  Qed.
  Lemma rq_eval_retry : rq (eval_retry E t).
  Proof.
    unfold eval_retry. apply rq_bind; [apply rq_eval_activity|]. intros r. apply rq_get_ti. intros x _ Et; try rewrite Et; clear Et.
    destruct r as [e|]; [|go]. destruct (t_retry tk) as [rc|]; [|go]. destruct (retriable e); [|go].
    apply rq_bind; [apply (rq_retry_data L3)|]. intros [|]; [go|]. apply rq_bind; [unfold retry_bound; go|].
    intros; apply rq_retry_loop.
  Qed.
  Lemma rq_basic_eval : rq (basic_eval E t).
  Proof.
    unfold basic_eval. apply rq_get_ti. intros x _ _. destruct (bool_decide _); [go|].
    apply rq_bind; [apply rq_eval_retry|]. intros; go.
  Qed.
  Lemma rq_basic_post : rq (basic_post E t).
  Proof.
    unfold basic_post. apply rq_bind; [apply rq_post_eval_activity|]. intros r. apply rq_get_ti. intros x _ Et; try rewrite Et; clear Et.
    destruct r as [e|]; [|go]. destruct e; try go. destruct (t_retry tk) as [rc|]; [|go].
    apply rq_bind; [apply (rq_retry_data L3)|]. intros [|[c iv]]; [go|]. destruct (0 <? c); [|go].
    apply rq_bind; [apply (rq_set_wd L3)|]. intros _. apply rq_bind; [apply rq_eval_retry|]. intros; go.
  Qed.
  Context (Hty : t_type tk <> TBasic).
  Lemma rq_iter_step it : rq (iter_step E t it).
  Proof.
    unfold iter_step. destruct (iter_next it) as [it' o]. apply rq_bind; [apply (rq_set_wd L3)|]. intros _.
    destruct o as [[[k v] ix]|]; [|go]. apply rq_bind; [apply (rq_set_wd L3)|]. intros _.
    apply rq_bind; [apply rq_eval_retry|]. intros [|[|]]; [| |]; go; apply (rq_end L3); auto.
  Qed.
  Lemma rq_iter_eval : rq (iter_eval E t).
  Proof.
    unfold iter_eval. apply rq_get_ti. intros x _ Et; try rewrite Et; clear Et. destruct (bool_decide _); [go|].
    destruct (ti_wd x !! _) as [[]|]; try go.
    - apply rq_iter_step.
    - destruct (t_loop tk) as [c|]; [|go]. apply rq_bind.
      + unfold iterate_on. destruct (lc_iter c) as [[]|]; try go. destruct a; go.
      + intros [|v]; [go|]. destruct v; try go; (destruct (make_iter E _); [|go]);
          (apply rq_bind; [apply (rq_set_wd L3)|]; intros _); (apply rq_bind; [apply (rq_set_wd L3)|]; intros _); apply rq_iter_step.
  Qed.
  Lemma rq_iter_post : rq (iter_post E t).
  Proof.
    unfold iter_post. apply rq_bind; [apply rq_post_eval_activity|]. intros [|].
    - apply rq_bind; [apply (rq_end L3); auto|go].
    - apply rq_bind; [apply (rq_end L3); auto|]. intros _. apply rq_get_ti. intros x _ _.
      destruct (ti_wd x !! _) as [[]|]; go.
  Qed.
  Lemma rq_dw_eval : rq (dw_eval E t).
  Proof.
    unfold dw_eval. apply rq_get_ti. intros x _ _. destruct (bool_decide _); [go|].
    apply rq_bind; [apply (rq_init_index L3)|]. intros _. apply rq_bind; [apply rq_eval_retry|]. intros [|[|]].
    - apply rq_bind; [apply (rq_end L3); auto|go].
    - apply rq_finally; [apply (rq_check_cond L3)|apply (rq_update_index L3)].
    - apply rq_bind; [apply (rq_end L3); auto|go].
  Qed.
  Lemma rq_dw_post : rq (dw_post E t).
  Proof.
    unfold dw_post. apply rq_bind; [apply (rq_init_index L3)|]. intros _.
    apply rq_bind; [apply rq_post_eval_activity|]. intros [|].
    - apply rq_bind; [apply (rq_end L3); auto|go].
    - apply rq_bind; [apply (rq_end L3); auto|]. intros _. apply rq_finally; [apply (rq_check_cond L3)|apply (rq_update_index L3)].
  Qed.
  End Act3.
  End ActA.
  End Act2.
  End Act1.
End Eval.

Lemma rq_beh_eval E t i tk R : leaves E t i tk R -> rq t i tk R (beh_eval E (t_type tk) t).
Proof.
  intros [L0 LA L1 L2 L3]. destruct (t_type tk) eqn:Ht; [by apply rq_basic_eval|apply rq_iter_eval; [done..|by rewrite Ht]|].
  apply rq_dw_eval; [done..|by rewrite Ht].
Qed.
Lemma rq_beh_post E t i tk R : leaves E t i tk R -> rq t i tk R (beh_post E (t_type tk) t).
Proof.
  intros [L0 LA L1 L2 L3]. destruct (t_type tk) eqn:Ht; [by apply rq_basic_post|apply rq_iter_post; [done..|by rewrite Ht]|].
  apply rq_dw_post; [done..|by rewrite Ht].
Qed.
