(** The recursions of the engine end: the bounds of the model are never reached. No Go counterpart (proof infrastructure). *)
From Verif Require Export Locks.
Local Open Scope Z_scope.

(** Tables refer to task instances that exist; numbers are used once. *)
Definition kst (s : st) : Prop :=
  (forall t, (s_nti s <= t)%nat -> s_tis s !! t = None) /\
  (forall j, (s_sfctr s < j)%nat -> s_insts s !! j = None) /\
  (forall i y id t, s_insts s !! i = Some y -> i_tasks y !! id = Some t ->
     exists x, s_tis s !! t = Some x /\ ti_inst x = i /\ t_id (ti_task x) = id).

(** Task and flow instances stay what they are and the log grows; [b]: the retries left stay as well. *)
Definition same_ti (b : bool) (x x' : tinst) : Prop :=
  ti_inst x' = ti_inst x /\ ti_task x' = ti_task x /\ (b = true -> ti_wd x' !! "_retryOnErrorAttr" = ti_wd x !! "_retryOnErrorAttr").
Definition ext_st (b : bool) (s s' : st) : Prop :=
  (forall t x, s_tis s !! t = Some x -> exists x', s_tis s' !! t = Some x' /\ same_ti b x x') /\
  (forall i y, s_insts s !! i = Some y -> exists y', s_insts s' !! i = Some y' /\ i_def y' = i_def y) /\
  (forall e, e ∈ s_log s -> e ∈ s_log s').

(** The task was skipped in flow instance [i]. *)
Definition skipped_in (s : st) (i : nat) (tk : task) : Prop :=
  exists t x, s_tis s !! t = Some x /\ ti_inst x = i /\ ti_task x = tk /\ EvTaskUpd i (t_id tk) TSkipped ∈ s_log s.
(** A link leads from the first task to the second. *)
Definition leads (d : defn) (a b : task) : Prop :=
  exists l k, l ∈ t_to a /\ link_target d l = Some k /\ t_id k = t_id b.
(** Skipped tasks, each linked to the one before it in the list. *)
Inductive chain (s : st) (i : nat) (d : defn) : list task -> Prop :=
  | chain_nil : chain s i d []
  | chain_cons tk p : skipped_in s i tk -> (forall k, head p = Some k -> leads d k tk) -> chain s i d p -> chain s i d (tk :: p).
(** More skipped tasks in a row than there are tasks. *)
Definition deep (s : st) : Prop :=
  exists i y p, s_insts s !! i = Some y /\ chain s i (i_def y) p /\ (length (all_tasks (i_def y)) < length p)%nat.

Lemma same_ti_refl b x : same_ti b x x.
Proof. done. Qed.
Lemma ext_refl b s : ext_st b s s.
Proof. split_and!; eauto using same_ti_refl. Qed.
Lemma ext_trans b s1 s2 s3 : ext_st b s1 s2 -> ext_st b s2 s3 -> ext_st b s1 s3.
Proof.
  intros (A1 & B1 & C1) (A2 & B2 & C2). split_and!.
  - intros t x Hx. destruct (A1 _ _ Hx) as (x1 & Hx1 & P1 & Q1 & R1). destruct (A2 _ _ Hx1) as (x2 & Hx2 & P2 & Q2 & R2).
    exists x2. split; [done|]. split_and!; [congruence|congruence|]. intros Hb. by rewrite R2, R1.
  - intros i y Hy. destruct (B1 _ _ Hy) as (y1 & Hy1 & P1). destruct (B2 _ _ Hy1) as (y2 & Hy2 & P2). exists y2. split; [done|congruence].
  - auto.
Qed.
Lemma ext_weak b s s' : ext_st true s s' -> ext_st b s s'.
Proof. intros (A & B & C). split_and!; [|done..]. intros t x Hx. destruct (A _ _ Hx) as (x' & Hx' & P & Q & R). exists x'. split; [done|]. split_and!; auto. Qed.
Lemma skipped_ext b s s' i tk : ext_st b s s' -> skipped_in s i tk -> skipped_in s' i tk.
Proof.
  intros (A & _ & C) (t & x & Hx & Hi & Ht & He). destruct (A _ _ Hx) as (x' & Hx' & P & Q & _). exists t, x'. split_and!; [done|congruence..|auto].
Qed.
Lemma chain_ext b s s' i d p : ext_st b s s' -> chain s i d p -> chain s' i d p.
Proof. intros Hx. induction 1; constructor; eauto using skipped_ext. Qed.
Lemma deep_ext b s s' : ext_st b s s' -> deep s -> deep s'.
Proof.
  intros Hx (i & y & p & Hy & Hc & Hl). destruct (proj1 (proj2 Hx) _ _ Hy) as (y' & Hy' & Hd). exists i, y', p. rewrite Hd.
  split; [done|]. split; [by eapply chain_ext|done].
Qed.

Section Bound.
  Context (E : env).

  (** The bounds are reached only after such a chain, and nothing waits unless tasks are evaluated concurrently. *)
  Definition post (b : bool) {A} (s : st) (r : out A * st) : Prop :=
    kst r.2 /\ ext_st b s r.2 /\ (r.1 = Fuel -> deep r.2) /\ (r.1 = Blocked -> e_conc E = true).
  Definition fz (b : bool) {A} (m : M A) : Prop := forall s, kst s -> post b s (m s).

  (** *** Rules *)
  Lemma post_weak b {A} s (r : out A * st) : post true s r -> post b s r.
  Proof. intros (K & X & F). split; [done|]. split; [by apply ext_weak|done]. Qed.
  Lemma fz_weak b {A} (m : M A) : fz true m -> fz b m.
  Proof. intros H s Hs. by apply post_weak, H. Qed.
  Lemma post_trans b {A B} s (a : A) s1 (r : out B * st) : post b s (Ok a, s1) -> post b s1 r -> post b s r.
  Proof. intros (_ & X1 & _) (K & X2 & F). split; [done|]. split; [by eapply ext_trans|done]. Qed.
  Lemma post_bind b {A B} (m : M A) (k : A -> M B) s :
    post b s (m s) -> (forall a s1, m s = (Ok a, s1) -> kst s1 -> ext_st b s s1 -> post b s1 (k a s1)) -> post b s (bind m k s).
  Proof.
    intros Hm Hk. unfold bind. destruct (m s) as [[a|e| |] s1]; [|destruct Hm as (K & X & F1 & F2); refine (conj K (conj X (conj _ _))); cbn in *; intros; first [done|by apply F1|by apply F2]..].
    eapply post_trans; [exact Hm|]. destruct Hm as (K & X & _). by apply Hk.
  Qed.
  Lemma post_ret b {A} (a : A) s : kst s -> post b s (Ok a, s).
  Proof. intros K. split; [done|]. split; [apply ext_refl|done]. Qed.
  Lemma fz_ret b {A} (a : A) : fz b (ret a).
  Proof. intros s. apply post_ret. Qed.
  Lemma fz_panic b {A} m : fz b (panic (A:=A) m).
  Proof. intros s K. split; [done|]. split; [apply ext_refl|done]. Qed.
  Lemma fz_get b : fz b get.
  Proof. intros s. apply post_ret. Qed.
  Lemma fz_bind b {A B} (m : M A) (k : A -> M B) : fz b m -> (forall a, fz b (k a)) -> fz b (bind m k).
  Proof. intros Hm Hk s Hs. apply post_bind; [by apply Hm|]. intros a s1 _ K1 _. by apply Hk. Qed.
  Lemma fz_catch b {A} (m : M A) h : fz b m -> (forall e, fz b (h e)) -> fz b (catch m h).
  Proof.
    intros Hm Hk s Hs. specialize (Hm s Hs). unfold catch. destruct (m s) as [[a|e| |] s1]; [done| |done..].
    destruct Hm as (K & X & _). destruct (Hk e s1 K) as (K2 & X2 & F2). split; [done|]. split; [by eapply ext_trans|done].
  Qed.
  Lemma fz_finally b {A} (m : M A) f : fz b m -> fz b f -> fz b (finally m f).
  Proof.
    intros Hm Hf. unfold finally. apply fz_bind.
    - apply fz_catch; [apply fz_bind; [done|intros; apply fz_ret]|intros; apply fz_ret].
    - intros r. apply fz_bind; [done|]. intros _. destruct r; [apply fz_panic|apply fz_ret].
  Qed.
  Lemma fz_iterM b {A} (f : A -> M unit) l : (forall x, fz b (f x)) -> fz b (iterM f l).
  Proof. intros Hf. induction l; simpl; [apply fz_ret|]. apply fz_bind; auto. Qed.

  (** *** Elementary changes *)
  Lemma post_same b {A} (a : A) s s' : s_tis s' = s_tis s -> s_nti s' = s_nti s -> s_insts s' = s_insts s -> s_sfctr s' = s_sfctr s ->
    (forall e, e ∈ s_log s -> e ∈ s_log s') -> kst s -> post b s (Ok a, s').
  Proof.
    intros H1 H2 H3 H4 H5 (K1 & K2 & K3). split; [|split; [|done]]; cbn [fst snd].
    - unfold kst. by rewrite H1, H2, H3, H4.
    - unfold ext_st. rewrite H1, H3. split_and!; eauto using same_ti_refl.
  Qed.
  Lemma fz_modify b f : (forall s, s_tis (f s) = s_tis s) -> (forall s, s_nti (f s) = s_nti s) -> (forall s, s_insts (f s) = s_insts s) ->
    (forall s, s_sfctr (f s) = s_sfctr s) -> (forall s, s_log (f s) = s_log s) -> fz b (modify f).
  Proof. intros H1 H2 H3 H4 H5 s K. apply post_same; auto. intros e. by rewrite H5. Qed.
  Lemma fz_log b e : fz b (log_ev e).
  Proof. intros s K. apply post_same; try done. intros e' He. by right. Qed.
  Lemma fz_upd_inst b i f : (forall y, i_def (f y) = i_def y) -> (forall y id t, i_tasks (f y) !! id = Some t -> i_tasks y !! id = Some t) -> fz b (upd_inst i f).
  Proof.
    intros H1 H2 s (K1 & K2 & K3). split; [|split; [|done]]; cbn [fst snd].
    - split_and!; cbn.
      + done.
      + intros j Hj. destruct (decide (i = j)) as [->|]; [rewrite lookup_alter, K2 by done; done|rewrite lookup_alter_ne by done; by apply K2].
      + intros j y id t Hy Ht. destruct (decide (i = j)) as [->|]; [|rewrite lookup_alter_ne in Hy by done; by eapply K3].
        rewrite lookup_alter in Hy. destruct (s_insts s !! j) as [y0|] eqn:Hy0; [|done]. injection Hy as <-. by eapply K3, H2.
    - split_and!; cbn; [eauto using same_ti_refl| |done]. intros j y Hy. destruct (decide (i = j)) as [->|].
      + rewrite lookup_alter, Hy. eexists. split; [done|]. apply H1.
      + rewrite lookup_alter_ne by done. eauto.
  Qed.
  Lemma fz_upd_ti b t f : (forall x, ti_inst (f x) = ti_inst x) -> (forall x, ti_task (f x) = ti_task x) ->
    (forall x, b = true -> ti_wd (f x) = ti_wd x) -> fz b (upd_ti t f).
  Proof.
    intros H1 H2 H3 s (K1 & K2 & K3). split; [|split; [|done]]; cbn [fst snd].
    - split_and!; cbn.
      + intros u Hu. destruct (decide (t = u)) as [->|]; [rewrite lookup_alter, K1 by done; done|rewrite lookup_alter_ne by done; by apply K1].
      + done.
      + intros i y id u Hy Hu. destruct (K3 _ _ _ _ Hy Hu) as (x & Hx & Hi & Hid). destruct (decide (t = u)) as [->|].
        * rewrite lookup_alter, Hx. eexists. split; [done|]. cbn. by rewrite H1, H2.
        * rewrite lookup_alter_ne by done. eauto.
    - split_and!; cbn; [|eauto|done]. intros u x Hx. destruct (decide (t = u)) as [->|].
      + rewrite lookup_alter, Hx. eexists. split; [done|]. split_and!; [done..|]. intros Hb. by rewrite H3.
      + rewrite lookup_alter_ne by done. exists x. split; [done|apply same_ti_refl].
  Qed.
  Lemma fz_set_wd t k w : fz false (set_wd t k w).
  Proof. apply fz_upd_ti; done. Qed.
  Lemma fz_find_task b i tk : fz b (find_or_create_task i tk).
  Proof.
    intros s K. unfold find_or_create_task, bind, get_inst, bind, get. destruct (s_insts s !! i) as [y|] eqn:Hy; [|by apply fz_panic].
    unfold ret at 1. destruct (i_tasks y !! t_id tk) as [t|]; [by apply post_ret|]. unfold new_tinst.
    destruct (t_act tk); [|by apply fz_panic]. unfold bind, get, modify, ret, upd_inst, log_ev, modify.
    destruct K as (K1 & K2 & K3). set (x0 := mk_tinst _ _ _ _ _ _ _ _ _).
    assert (Hn : s_tis s !! s_nti s = None) by (apply K1; lia).
    split; [|split; [|done]]; cbn [fst snd]; cbn.
    - split_and!; cbn.
      + intros t Ht. rewrite lookup_insert_ne by lia. apply K1. lia.
      + intros j Hj. destruct (decide (i = j)) as [->|]; [rewrite lookup_alter, K2 by done; done|rewrite lookup_alter_ne by done; by apply K2].
      + assert (Hold : forall j y0 id t, s_insts s !! j = Some y0 -> i_tasks y0 !! id = Some t ->
          exists x, <[s_nti s:=x0]> (s_tis s) !! t = Some x /\ ti_inst x = j /\ t_id (ti_task x) = id).
        { intros j y0 id t Hj Ht. destruct (K3 _ _ _ _ Hj Ht) as (x & Hx & ?). exists x. split; [|done].
          rewrite lookup_insert_ne; [done|]. intros <-. congruence. }
        intros j y' id t Hj Ht. destruct (decide (i = j)) as [->|]; [|rewrite lookup_alter_ne in Hj by done; by eapply Hold].
        rewrite lookup_alter, Hy in Hj. injection Hj as <-. cbn in Ht. destruct (decide (t_id tk = id)) as [<-|].
        * rewrite lookup_insert in Ht. injection Ht as <-. exists x0. rewrite lookup_insert. done.
        * rewrite lookup_insert_ne in Ht by done. by eapply Hold.
    - split_and!; cbn.
      + intros t x Hx. exists x. split; [|apply same_ti_refl]. rewrite lookup_insert_ne; [done|]. intros <-. congruence.
      + intros j y0 Hj. destruct (decide (i = j)) as [->|].
        * rewrite lookup_alter, Hj. eexists. split; [done|]. done.
        * rewrite lookup_alter_ne by done. eauto.
      + intros e He. by right.
  Qed.
  Lemma fz_new_embedded b t uri d : fz b (new_embedded t uri d).
  Proof.
    intros s K. unfold new_embedded, bind, get, get_ti, bind, get. destruct (s_tis s !! t) as [x|]; [|by apply fz_panic].
    unfold ret, modify, log_ev, modify. destruct K as (K1 & K2 & K3). set (y0 := mk_inst _ _ _ _ _ _ _ _ _ _ _ _).
    assert (Hn : s_insts s !! S (s_sfctr s) = None) by (apply K2; lia).
    split; [|split; [|done]]; cbn [fst snd].
    - split_and!; cbn; [done| |].
      + intros j Hj. rewrite lookup_insert_ne by lia. apply K2. lia.
      + intros j y id u Hj Hu. destruct (decide (S (s_sfctr s) = j)) as [<-|]; [|rewrite lookup_insert_ne in Hj by done; by eapply K3].
        rewrite lookup_insert in Hj. injection Hj as <-. done.
    - split_and!; cbn; [eauto using same_ti_refl| |intros e He; by right]. intros j y Hj. exists y. split; [|done].
      rewrite lookup_insert_ne; [done|]. intros <-. congruence.
  Qed.

  Lemma fz_release b i tk : fz b (release_task i tk).
  Proof.
    assert (G : forall j, fz b (get_inst j)).
    { intros j. unfold get_inst. apply fz_bind; [apply fz_get|]. intros s. destruct (s_insts s !! j); [apply fz_ret|apply fz_panic]. }
    unfold release_task. apply fz_bind; [apply G|]. intros _. apply fz_bind.
    { apply fz_upd_inst; [done|]. intros y id t. cbn. rewrite lookup_delete_Some. by intros [_ ?]. }
    intros _. apply fz_bind; [apply fz_log|]. intros _. apply fz_iterM. intros l. apply fz_bind; [apply G|]. intros _. apply fz_bind; [|intros; apply fz_log].
    apply fz_upd_inst; [done|]. intros y id t. by cbn.
  Qed.
  Lemma fz_clear b : fz b clear_tasks.
  Proof.
    unfold clear_tasks. apply fz_bind.
    { unfold get_inst. apply fz_bind; [apply fz_get|]. intros s. destruct (s_insts s !! 0%nat); [apply fz_ret|apply fz_panic]. }
    intros _. apply fz_bind; [|intros; apply fz_log]. apply fz_upd_inst; [done|]. intros y id t. cbn. by rewrite lookup_empty.
  Qed.
  Ltac go := repeat first
    [ assumption
    | lazymatch goal with
      | |- fz _ (ret _) => apply fz_ret
      | |- fz _ (panic _) => apply fz_panic
      | |- fz _ get => apply fz_get
      | |- fz _ (log_ev _) => apply fz_log
      | |- fz _ (set_attrs _ _ _) => unfold set_attrs
      | |- fz _ (set_flow_status _ _ _) => unfold set_flow_status, post_flow_event
      | |- fz _ (new_embedded _ _ _) => apply fz_new_embedded
      | |- fz _ (reply _ _ _) => unfold reply
      | |- fz _ (return_ _ _ _) => unfold return_
      | |- fz _ (get_return_data _) => unfold get_return_data
      | |- fz _ (upd_inst _ _) => apply fz_upd_inst; [intros ?; reflexivity|intros ? ? ?; exact id]
      | |- fz _ (modify _) => apply fz_modify; intros ?; reflexivity
      | |- fz _ (iterM _ _) => apply fz_iterM; intros ?
      | |- fz _ (bind _ _) => apply fz_bind; [|intros ?]
      | |- fz _ (catch _ _) => apply fz_catch; [|intros ?]
      | |- fz _ (finally _ _) => apply fz_finally
      | |- fz _ (let _ := _ in _) => cbv zeta
      | |- fz _ (match ?x with _ => _ end) => destruct x
      | |- fz _ (get_ti _) => unfold get_ti
      | |- fz _ (get_inst _) => unfold get_inst
      | |- fz _ (upd_ti _ _) => apply fz_upd_ti; intros ?; try intros _; reflexivity
      | |- fz _ (ext _ _) => unfold ext
      | |- fz _ tick => unfold tick
      | |- fz _ (set_wd _ _ _) => apply fz_set_wd
      | |- fz _ (set_value _ _ _ _) => unfold set_value
      | |- fz _ (set_values _ _ _) => unfold set_values
      | |- fz _ (set_task_status _ _) => unfold set_task_status
      | |- fz _ (track_task _) => unfold track_task
      | |- fz _ (find_or_create_task _ _) => apply fz_find_task
      | |- fz _ (find_or_create_link _ _) => unfold find_or_create_link
      | |- fz _ (from_links _) => unfold from_links
      | |- fz _ (to_links _) => unfold to_links
      | |- fz _ (need_cov _ _ _) => unfold need_cov
      | |- fz _ (set_link_status _ _ _ _) => unfold set_link_status
      | |- fz _ (release_task _ _) => apply fz_release
      | |- fz _ (schedule_eval _) => unfold schedule_eval
      | |- fz _ (record_state _) => unfold record_state
      | |- fz _ (append_error_data _ _ _) => unfold append_error_data
      | |- fz _ (set_task_error _ _ _) => unfold set_task_error
      | |- fz _ (add_activity_coverage _ _) => unfold add_activity_coverage
      | |- fz _ (apply_settings _ _) => unfold apply_settings
      | |- fz _ (enter _) => unfold enter
      | |- fz _ (host_of _) => unfold host_of
      | |- fz _ clear_tasks => apply fz_clear
      | |- fz _ (complete_flow _ _) => unfold complete_flow
      | |- fz _ (entries_of _ _) => unfold entries_of
      | |- fz _ (eval_link _ _ _) => unfold eval_link
      | |- fz _ (done_link _ _ _ _ _) => unfold done_link
      | |- fz _ (beh_skip _ _) => unfold beh_skip
      | |- fz _ (beh_error _ _) => unfold beh_error
      | |- fz _ (flow_task_done _) => unfold flow_task_done
      | |- fz _ (parent_info _ _) => unfold parent_info
      | |- fz _ (icpt_id _) => unfold icpt_id
      | |- fz _ (apply_input_mapper _ _) => unfold apply_input_mapper
      | |- fz _ (apply_input_icpt _ _) => unfold apply_input_icpt
      | |- fz _ (set_exec_status _ _ _) => unfold set_exec_status
      | |- fz _ (apply_output_icpt _ _) => unfold apply_output_icpt
      | |- fz _ (apply_output_mapper _ _) => unfold apply_output_mapper
      | |- fz _ (handle_accumulation _ _) => unfold handle_accumulation
      | |- fz _ (guard_err _ _) => unfold guard_err
      | |- fz _ (recover_eval _ _) => unfold recover_eval
      | |- fz _ (has_output_icpt _ _) => unfold has_output_icpt
      | |- fz _ (retry_value _ _ _) => unfold retry_value
      | |- fz _ (retry_data _ _ _) => unfold retry_data
      | |- fz _ (retry_bound _) => unfold retry_bound
      | |- fz _ (iterate_on _ _ _) => unfold iterate_on
      | |- fz _ (init_index _) => unfold init_index
      | |- fz _ (update_index _) => unfold update_index
      | |- fz _ (check_cond _ _) => unfold check_cond
      end ].


  Lemma fz_done_links b t i ls a : fz b (done_links E t i ls a).
  Proof. revert a. induction ls as [|l ls IH]; intros a; simpl; [go|]. apply fz_bind; [go|]. intros []; [go|apply IH]. Qed.
  Lemma fz_beh_done b t : fz b (beh_done E t).
  Proof.
    unfold beh_done. apply fz_bind; [go|]. intros ls. apply fz_bind; [go|]. intros _. apply fz_bind; [go|]. intros x. cbv zeta.
    destruct ls; [go|]. apply fz_bind; [apply fz_done_links|]. intros [e|a]; [go|]. apply fz_bind; [go|]. intros es. go.
  Qed.
  Lemma fz_asserts b t id mt k l : fz b (run_asserts E t id mt k l).
  Proof. revert k. induction l as [|a l IH]; intros k; cbn [run_asserts]; [go|]. destruct (negb mt), (as_empty a), (as_type a =? 1)%Z; go; apply IH. Qed.
  Lemma fz_apply_asserts b t ty : fz b (apply_asserts E t ty).
  Proof. unfold apply_asserts. go. apply fz_asserts. Qed.

  (** *** Entering tasks *)
  Lemma fz_with_lock b {A} (m : M A) : fz b m -> fz b (with_lock E m).
  Proof.
    intros Hm. unfold with_lock. destruct (e_conc E) eqn:Hc; [|done]. apply fz_bind; [go|]. intros s. destruct (s_lock s); [|go].
    intros s1 K. split; [done|]. split; [apply ext_refl|]. by split.
  Qed.
  Lemma find_task_is i tk s t s1 : kst s1 -> find_or_create_task i tk s = (Ok t, s1) ->
    exists x, s_tis s1 !! t = Some x /\ ti_inst x = i /\ t_id (ti_task x) = t_id tk.
  Proof.
    intros (_ & _ & K3). unfold find_or_create_task, bind, get_inst, bind, get. destruct (s_insts s !! i) as [y|] eqn:Hy; [|done].
    unfold ret at 1. destruct (i_tasks y !! t_id tk) as [t'|] eqn:Ht.
    - intros [= <- <-]. by eapply K3.
    - unfold new_tinst. destruct (t_act tk); [|done]. unfold bind, get, modify, ret, upd_inst, log_ev, modify. intros [= <- <-].
      eexists. cbn. rewrite lookup_insert. done.
  Qed.
  Lemma enter_skipped t s s1 x : enter t s = (Ok ERSkip, s1) -> s_tis s !! t = Some x ->
    exists x1, s_tis s1 !! t = Some x1 /\ ti_status x1 = TSkipped /\ EvTaskUpd (ti_inst x) (t_id (ti_task x)) TSkipped ∈ s_log s1.
  Proof.
    intros H Hx. unfold enter in H. apply bind_ok in H as (u & s2 & H1 & H). apply bind_ok in H as (ls & s3 & H2 & H).
    apply bind_ok in H as (x' & s4 & H3 & H). apply bind_ok in H as (y & s5 & H4 & H).
    destruct (scan_links _ _ _) as [[]|]; [|apply bind_ok in H as (? & ? & _ & H); discriminate H|discriminate H].
    apply bind_ok in H as (u' & s6 & H5 & H). injection H as <-.
    assert (Hs : s_tis s5 = s_tis s2).
    { unfold get_inst, bind, get, ret, panic in H4. destruct (s_insts s4 !! _); [|done]. injection H4 as _ <-.
      unfold get_ti, bind, get, ret, panic in H3. destruct (s_tis s3 !! t); [|done]. injection H3 as _ <-.
      unfold from_links in H2. apply bind_ok in H2 as (x2 & s7 & H6 & H2). apply bind_ok in H2 as (? & s8 & H7 & H2). injection H2 as _ <-.
      assert (s7 = s2) as -> by (unfold get_ti, bind, get, ret, panic in H6; destruct (s_tis s2 !! t); congruence).
      revert s2 H1 H6 H7. generalize (t_from (ti_task x2)). intros l0 s2 _ _. revert s2. induction l0 as [|l l0 IH]; intros s2 H7; cbn in H7.
      - by inversion H7.
      - apply bind_ok in H7 as (? & s9 & H8 & H7). rewrite (IH _ H7). unfold find_or_create_link, bind, get_inst, bind, get in H8.
        destruct (s_insts s2 !! ti_inst x2) as [y2|]; [|done]. unfold ret at 1 in H8. destruct (i_links y2 !! l_id l); [by inversion H8|].
        unfold upd_inst, log_ev, modify in H8. by inversion H8. }
    assert (H2' : s_tis s2 !! t = Some (set_ti_status TEntered x)).
    { unfold set_task_status, bind, get_ti, bind, get in H1. rewrite Hx in H1. unfold ret, upd_ti, log_ev, modify in H1. injection H1 as _ <-.
      cbn. by rewrite lookup_alter, Hx. }
    unfold set_task_status, bind, get_ti, bind, get in H5. rewrite Hs, H2' in H5. unfold ret, upd_ti, log_ev, modify in H5. injection H5 as _ <-.
    cbn. rewrite lookup_alter, Hs, H2'. eexists. split; [done|]. split; [done|]. left.
  Qed.
  Lemma resolve_targets d es r : resolve_entries d es = Some r -> forall e, e ∈ r -> exists l c, (l, c) ∈ es /\ link_target d l = Some e.1.
  Proof.
    revert r. induction es as [|[l c] es IH]; intros r H e He; cbn in H; [injection H as <-; by apply elem_of_nil in He|].
    destruct (link_target d l) as [tk|] eqn:Hl; [|done]. destruct (resolve_entries d es) as [r'|]; [|done]. injection H as <-.
    apply elem_of_cons in He as [->|He]; [exists l, c; split; [left|done]|]. destruct (IH _ eq_refl _ He) as (l' & c' & ? & ?).
    exists l', c'. split; [by right|done].
  Qed.
  Lemma skip_entries t s x y r s1 : beh_skip E t s = (Ok r, s1) -> s_tis s !! t = Some x -> s_insts s !! ti_inst x = Some y -> kst s ->
    forall e, e ∈ r.1.2 -> leads (i_def y) (ti_task x) e.1.
  Proof.
    intros H Hx Hy K. unfold beh_skip in H. cbv zeta in H. apply bind_ok in H as (ls & s2 & H1 & H). apply bind_ok in H as (u & s3 & H2 & H).
    apply bind_ok in H as (x' & s4 & H3 & H).
    assert (Hls : ls = t_to (ti_task x)).
    { unfold to_links in H1. apply bind_ok in H1 as (x2 & s7 & H6 & H1). apply bind_ok in H1 as (? & s8 & H7 & H1). injection H1 as <- _.
      unfold get_ti, bind, get, ret, panic in H6. rewrite Hx in H6. by injection H6 as <-. }
    assert (P1 : post true s (to_links t s)) by (assert (fz true (to_links t)) as F by go; by apply F). rewrite H1 in P1. destruct P1 as (K2 & X2 & _).
    assert (P2 : post true s2 (set_task_status t TSkipped s2)) by (assert (fz true (set_task_status t TSkipped)) as F by go; by apply F).
    rewrite H2 in P2. destruct P2 as (K3 & X3 & _). cbn [snd] in *.
    assert (s4 = s3 /\ s_tis s3 !! t = Some x') as [-> Hx'].
    { unfold get_ti, bind, get, ret, panic in H3. destruct (s_tis s3 !! t); [|done]. by injection H3 as <- <-. }
    pose proof (ext_trans _ _ _ _ X2 X3) as X. destruct (proj1 X _ _ Hx) as (x1 & Hx1 & Hi & Ht & _). rewrite Hx' in Hx1. injection Hx1 as <-.
    destruct (proj1 (proj2 X) _ _ Hy) as (y3 & Hy3 & Hd). rewrite Hi in H.
    destruct ls as [|l0 ls0] eqn:Els; [injection H as <- _; intros e He; by apply elem_of_nil in He|]. rewrite <- Els in *. clear Els.
    apply bind_ok in H as (u' & s5 & H4 & H). apply bind_ok in H as (es & s6 & H5 & H). injection H as <- _. cbn.
    assert (P4 : post true s3 (iterM (fun l => set_link_status E (ti_inst x) l LSkipped) ls s3)).
    { assert (fz true (iterM (fun l => set_link_status E (ti_inst x) l LSkipped) ls)) as F by go. by apply F. }
    rewrite H4 in P4. destruct P4 as (_ & X4 & _). cbn [snd] in X4. destruct (proj1 (proj2 X4) _ _ Hy3) as (y5 & Hy5 & Hd5).
    unfold entries_of, bind, get_inst, bind, get in H5. rewrite Hy5 in H5. unfold ret at 1 in H5.
    destruct (resolve_entries _ _) as [r0|] eqn:Hr; [|done]. injection H5 as <- _. intros e He.
    destruct (resolve_targets _ _ _ Hr _ He) as (l & c & Hl & Hk). apply elem_of_list_fmap in Hl as (l' & [= -> ->] & Hl).
    exists l', e.1. rewrite <- Hls. split; [done|]. split; [congruence|done].
  Qed.

  (** What is needed to enter tasks: the tasks skipped so far. *)
  Definition below (s : st) (i : nat) (es : list entry) (n : nat) : Prop := exists y p, s_insts s !! i = Some y /\ chain s i (i_def y) p /\
    (forall e k, e ∈ es -> head p = Some k -> leads (i_def y) k e.1) /\ (length (all_tasks (i_def y)) <= n + length p)%nat.
  Lemma below_ext b s s' i es n : ext_st b s s' -> below s i es n -> below s' i es n.
  Proof.
    intros X (y & p & Hy & Hc & He & Hl). destruct (proj1 (proj2 X) _ _ Hy) as (y' & Hy' & Hd). exists y', p. rewrite Hd.
    split_and!; [done|by eapply chain_ext|done..].
  Qed.
  (** The chain with a task that has just been skipped. *)
  Definition at_task (s : st) (t i : nat) (n : nat) : Prop := exists x y p, s_tis s !! t = Some x /\ ti_inst x = i /\ ti_status x = TSkipped /\
    s_insts s !! i = Some y /\ chain s i (i_def y) (ti_task x :: p) /\ (length (all_tasks (i_def y)) <= n + length p)%nat.

  Lemma post_enter_list b skip i es n : (forall t s, kst s -> at_task s t i n -> post b s (skip t s)) ->
    forall s, kst s -> below s i es n -> post b s (enter_list E skip i es s).
  Proof.
    intros Hsk. induction es as [|[tk z] es IH]; intros s K B; cbn [enter_list]; [by apply post_ret|].
    assert (Brest : forall s', ext_st b s s' -> below s' i es n).
    { intros s' X. apply (below_ext b s s' i es n X). destruct B as (y & p & Hy & Hc & He & Hl). exists y, p. split_and!; try done.
      intros e k Hin. apply He. by right. }
    apply post_bind; [by apply fz_find_task|]. intros t s1 Hf K1 X1. destruct (find_task_is _ _ _ _ _ K1 Hf) as (x1 & Hx1 & Hi1 & Hid1).
    assert (G : get_ti t s1 = (Ok x1, s1)) by (unfold get_ti, bind, get; by rewrite Hx1).
    apply post_bind; [rewrite G; by apply post_ret|]. intros x s1' Hg _ _. rewrite G in Hg. injection Hg as <- <-.
    destruct (e_conc E && ti_sched x1); [apply IH; [done|by apply Brest]|].
    apply post_bind; [assert (fz b (enter t)) as F by go; by apply F|]. intros er s2 Hen K2 X2. pose proof (ext_trans _ _ _ _ X1 X2) as X12.
    destruct er.
    - apply IH; [done|by apply Brest].
    - apply post_bind; [assert (fz b (apply_settings E t)) as F by go; by apply F|]. intros m s3 _ K3 X3. pose proof (ext_trans _ _ _ _ X12 X3) as X13.
      destruct m; [by apply post_ret|].
      apply post_bind; [assert (fz b (upd_ti t (set_ti_sched true))) as F by go; by apply F|]. intros u s4 _ K4 X4.
      pose proof (ext_trans _ _ _ _ X13 X4) as X14.
      apply post_bind; [assert (fz b (schedule_eval t)) as F by go; by apply F|]. intros u' s5 _ K5 X5. pose proof (ext_trans _ _ _ _ X14 X5) as X15.
      apply IH; [done|by apply Brest].
    - apply post_bind; [|intros u s3 _ K3 X3; apply IH; [done|apply Brest; by eapply ext_trans]]. apply Hsk; [done|].
      destruct (enter_skipped _ _ _ _ Hen Hx1) as (x2 & Hx2 & Hst & Hev). destruct (proj1 X2 _ _ Hx1) as (x2' & Hx2' & Hi2 & Ht2 & _).
      rewrite Hx2 in Hx2'. injection Hx2' as <-. destruct B as (y & p & Hy & Hc & He & Hl).
      destruct (proj1 (proj2 X12) _ _ Hy) as (y2 & Hy2 & Hd2). exists x2, y2, p. rewrite Hd2. split_and!; [done|congruence|done|done| |done].
      constructor.
      + exists t, x2. rewrite Ht2. split_and!; [done|congruence|done|by rewrite <- Hi1].
      + intros k Hk. destruct (He (tk, z) k) as (l & k' & H1 & H2 & H3); [left|done|]. exists l, k'. split_and!; [done..|]. rewrite Ht2, Hid1. done.
      + by eapply chain_ext.
  Qed.
  Lemma post_with_lock b {A} (m : M A) s : kst s -> (forall s', kst s' -> ext_st b s s' -> post b s' (m s')) -> post b s (with_lock E m s).
  Proof.
    intros K Hm. unfold with_lock. destruct (e_conc E) eqn:Hc; [|apply Hm; [done|apply ext_refl]].
    apply post_bind; [by apply post_ret|]. intros s0 s1 [= <- <-] _ _. destruct (s_lock s); [split; [done|]; split; [apply ext_refl|by split]|].
    apply post_bind; [assert (fz b (modify (set_s_lock true))) as F by go; by apply F|]. intros u s2 _ K2 X2.
    unfold finally. apply post_bind.
    - unfold catch, bind. specialize (Hm s2 K2 X2). destruct (m s2) as [[a|e| |] s3]; destruct Hm as (K3 & X3 & F3 & F4);
        refine (conj K3 (conj X3 (conj _ _))); cbn in *; intros; first [done|by apply F3|by apply F4].
    - intros r s3 _ K3 X3. apply post_bind; [assert (fz b (modify (set_s_lock false))) as F by go; by apply F|]. intros u' s4 _ K4 X4.
      destruct r; [by apply fz_panic|by apply post_ret].
  Qed.
  Lemma post_skip b n t i s : (forall es s', kst s' -> below s' i es n -> post b s' (enter_tasks E n i es s')) ->
    kst s -> at_task s t i (S n) -> post b s (handle_task_done E (enter_tasks E n) t s).
  Proof.
    intros IH K (x & y & p & Hx & Hi & Hst & Hy & Hc & Hl). unfold handle_task_done.
    assert (G : get_ti t s = (Ok x, s)) by (unfold get_ti, bind, get; by rewrite Hx).
    apply post_bind; [rewrite G; by apply post_ret|]. intros x' s' Hg _ _. rewrite G in Hg. injection Hg as <- <-. cbv zeta.
    rewrite bool_decide_eq_true_2 by done. apply post_bind.
    { apply post_bind; [assert (fz b (beh_skip E t)) as F by go; by apply F|]. intros r s1 _ K1 _. by apply post_ret. }
    intros r s1 Hr K1 X1. apply bind_ok in Hr as (r0 & s0 & Hsk & Hr). injection Hr as <- <-.
    assert (Hlead : forall e, e ∈ r0.1.2 -> leads (i_def y) (ti_task x) e.1) by (eapply skip_entries; [done|done|by rewrite Hi|done]).
    destruct r0 as [[nt es] pr]. cbn [fst snd] in *.
    apply post_bind; [assert (fz b (if nt then flow_task_done (ti_inst x) else ret false)) as F by go; by apply F|]. intros fd s2 _ K2 X2.
    pose proof (ext_trans _ _ _ _ X1 X2) as X12.
    apply post_bind; [assert (fz b (get_inst (ti_inst x))) as F by go; by apply F|]. intros y2 s3 _ K3 X3. pose proof (ext_trans _ _ _ _ X12 X3) as X13.
    apply post_bind; [|intros u s4 _ K4 _; by apply fz_release].
    destruct (fd || i_force y2); [assert (fz b (complete_flow E (ti_inst x))) as F by go; by apply F|].
    apply post_bind; [|intros u s4 _ K4 _; by apply post_ret]. rewrite Hi. apply IH; [done|]. destruct (proj1 (proj2 X13) _ _ Hy) as (y3 & Hy3 & Hd3).
    exists y3, (ti_task x :: p). rewrite Hd3. split_and!; [done|by eapply chain_ext| |cbn; lia]. intros e k He [= <-]. by apply Hlead.
  Qed.
  Lemma post_enter_tasks b n i es s : kst s -> below s i es n -> post b s (enter_tasks E n i es s).
  Proof.
    revert es s. induction n as [|n IH]; intros es s K B; cbn [enter_tasks]; (apply post_with_lock; [done|]); intros s1 K1 X1.
    - apply (post_enter_list b _ i es 0); [|done|by eapply below_ext]. intros t s2 K2 (x & y & p & Hx & Hi & Hst & Hy & Hc & Hl).
      split; [done|]. split; [apply ext_refl|]. split; [|done]. intros _. exists i, y, (ti_task x :: p). split_and!; [done..|cbn in *; lia].
    - apply (post_enter_list b _ i es (S n)); [|done|by eapply below_ext]. intros t s2 K2 A2. by apply (post_skip b n t i).
  Qed.
  Lemma fz_enter_top b i es : fz b (enter_top E i es).
  Proof.
    intros s K. unfold enter_top. apply post_bind; [assert (fz b (get_inst i)) as F by go; by apply F|]. intros y s1 Hy K1 X1.
    apply post_enter_tasks; [done|]. exists y, []. unfold get_inst, bind, get, ret, panic in Hy. destruct (s_insts s !! i) as [y'|] eqn:E0; [|done].
    injection Hy as <- <-. split_and!; [done|constructor|done|cbn; lia].
  Qed.
  Lemma fz_global b ent i e : (forall j es, fz b (ent j es)) -> fz b (handle_global_error E ent i e).
  Proof. intros He. unfold handle_global_error. go. apply He. Qed.
  Lemma fz_done b ent t : (forall j es, fz b (ent j es)) -> fz b (handle_task_done E ent t).
  Proof.
    intros He. unfold handle_task_done. apply fz_bind; [go|]. intros x. cbv zeta. apply fz_bind.
    { destruct (bool_decide _); go; apply fz_beh_done. }
    intros [e|[nt es]].
    - apply fz_bind; [go|]. intros y. apply fz_bind; [go|]. intros _. by apply fz_global.
    - apply fz_bind; [go|]. intros fd. apply fz_bind; [go|]. intros y. apply fz_bind; [|intros; go].
      destruct (_ || _); [go|]. apply fz_bind; [apply He|intros; go].
  Qed.
  Lemma fz_handle_error b t e : fz b (handle_task_error E t e).
  Proof.
    unfold handle_task_error. apply fz_bind; [go|]. intros _. apply fz_bind; [go|]. intros _. apply fz_bind; [go|]. intros r.
    apply fz_bind; [go|]. intros x. cbv zeta. destruct (r.1).
    - apply fz_bind; [go|]. intros _. apply fz_bind; [|intros; go]. destruct (r.2); [go|]. apply fz_bind; [apply fz_enter_top|intros; go].
    - apply fz_bind; [go|]. intros y. destruct (i_handling y); [go|]. apply fz_bind; [go|]. intros _. apply fz_global, fz_enter_top.
  Qed.
  Lemma fz_start_instance b i m : fz b (start_instance E i m).
  Proof.
    unfold start_instance. apply fz_bind; [go|]. intros x. apply fz_bind; [go|]. intros h. apply fz_bind; [go|]. intros _.
    apply fz_bind; [go|]. intros _. apply fz_bind; [go|]. intros _. apply fz_bind; [go|]. intros _. apply fz_bind; [apply fz_enter_top|intros; go].
  Qed.
  Lemma fz_start_subflow b t uri ins : fz b (start_subflow E t uri ins).
  Proof.
    unfold start_subflow. apply fz_bind; [go|]. intros n. destruct (e_def E n uri); [|go..]. apply fz_bind; [go|]. intros i.
    apply fz_bind; [apply fz_start_instance|]. intros _. go.
  Qed.
  Lemma fz_run_act b t a : fz b (run_act E t a).
  Proof.
    induction a as [r|n v k IH|m k IH|n v k IH|d e k IH|d e k IH|uri ins k1 IH1 k2 IH2]; cbn [run_act]; (apply fz_bind; [go|]; intros x); [go..|].
    apply fz_bind; [apply fz_start_subflow|]. intros []; done.
  Qed.

  (** *** Evaluating *)
  Lemma fz_call b t : fz b (call_activity E t).
  Proof.
    unfold call_activity. apply fz_bind; [go|]. intros x. cbv zeta. apply fz_bind; [go|]. intros _. apply fz_bind; [go|]. intros a.
    apply fz_bind; [apply fz_catch; [apply fz_run_act|intros; go]|]. intros [| |e0|msg]; [go|go| |go]. cbv zeta.
    apply fz_bind; [go|]. intros _. apply fz_bind; [go|]. intros _. apply fz_bind; [go|]. intros y. apply fz_bind; [go|]. intros _.
    apply fz_bind; [go|]. intros _. apply fz_bind; [|intros; go]. apply fz_catch; [|intros; go]. apply fz_bind; [apply fz_apply_asserts|intros; go].
  Qed.
  Lemma fz_finish b t : fz b (finish_activity E t).
  Proof.
    unfold finish_activity. apply fz_bind; [go|]. intros x. unfold guard_err. apply fz_bind; [go|]. intros []; [go|].
    apply fz_bind; [go|]. intros []; [go|]. apply fz_bind; [go|]. intros []; [go|]. apply fz_bind; [apply fz_apply_asserts|]. intros []; go.
  Qed.
  Lemma fz_eval_activity b t : fz b (eval_activity E t).
  Proof.
    unfold eval_activity, recover_eval. apply fz_catch; [|intros; go]. apply fz_bind; [go|]. intros x. destruct (t_act (ti_task x)) as [ac|]; [|go].
    unfold guard_err. apply fz_bind; [go|]. intros []; [go|]. apply fz_bind; [go|]. intros []; [|apply fz_finish].
    apply fz_bind; [go|]. intros []; [go|]. apply fz_bind; [go|]. intros [].
    - apply fz_bind; [go|]. intros _. apply fz_finish.
    - apply fz_bind; [apply fz_call|]. intros [|[]]; [go|apply fz_finish|go].
  Qed.
  Lemma fz_post b t : fz b (post_eval_activity E t).
  Proof.
    unfold post_eval_activity, recover_eval. apply fz_catch; [|intros; go]. apply fz_bind; [go|]. intros x. cbv zeta. apply fz_bind; [go|]. intros p.
    apply fz_bind.
    - destruct p; [|go]. apply fz_bind; [go|]. intros _. apply fz_bind; [apply fz_run_act|]. intros []; go.
    - intros [e|dn]; [go|]. apply fz_bind; [go|]. intros y. destruct (ti_rerr y); [go|]. destruct dn; [|go]. unfold guard_err.
      apply fz_bind; [go|]. intros []; [go|]. apply fz_bind; [go|]. intros []; [go|]. apply fz_bind; [apply fz_apply_asserts|]. intros []; go.
  Qed.

  (** *** Retrying *)
  Definition bud (n t : nat) (s : st) : Prop := exists x w, s_tis s !! t = Some x /\ ti_wd x !! "_retryOnErrorAttr" = Some w /\
    match w with WRetry c _ => (Z.to_nat c <= n)%nat | _ => True end.
  Lemma bud_ext n t s s' : ext_st true s s' -> bud n t s -> bud n t s'.
  Proof. intros (A & _) (x & w & Hx & Hw & Hn). destruct (A _ _ Hx) as (x' & Hx' & _ & _ & R). exists x', w. by rewrite R. Qed.
  Lemma post_retry_loop n t r s : kst s -> bud n t s -> post false s (retry_loop E n t r s).
  Proof.
    revert r s. induction n as [|n IH]; intros r s K (x & w & Hx & Hw & Hn);
      (assert (G : get_ti t s = (Ok x, s)) by (unfold get_ti, bind, get; by rewrite Hx)); cbn [retry_loop];
      (apply post_bind; [rewrite G; by apply post_ret|]); intros x' s' Hg _ _; rewrite G in Hg; injection Hg as <- <-;
      (destruct r as [e|]; [|by apply post_ret]); (destruct (t_retry (ti_task x)) as [rc|]; [|by apply post_ret]);
      (destruct (retriable e); [|by apply post_ret]);
      (assert (D : retry_data E t rc s = (Ok (match w with WRetry c iv => inr (c, iv) | _ => inl (EOther "error getting retry data") end), s));
       [unfold retry_data; unfold bind at 1; rewrite G, Hw; by destruct w|]);
      (apply post_bind; [rewrite D; by apply post_ret|]); intros d s' Hd _ _; rewrite D in Hd; injection Hd as <- <-; destruct w as [| | |c iv];
      try (by apply post_ret); destruct (Z.ltb_spec 0 c); try (by apply post_ret); [lia|].
    apply post_bind; [by apply fz_set_wd|]. intros u s1 Hs K1 _. injection Hs as _ <-.
    apply post_bind; [apply post_weak; by apply fz_eval_activity|]. intros r' s2 H2 K2 _. apply IH; [done|].
    pose proof (fz_eval_activity true t _ K1) as (_ & X & _). rewrite H2 in X. eapply bud_ext; [exact X|]. unfold bud. cbn.
    rewrite lookup_alter, Hx. eexists _, _. split; [done|]. cbn. rewrite lookup_insert. split; [done|]. cbn. lia.
  Qed.
  Lemma fz_eval_retry t : fz false (eval_retry E t).
  Proof.
    unfold eval_retry. apply fz_bind; [apply fz_eval_activity|]. intros r. apply fz_bind; [go|]. intros x. destruct r as [e|]; [|go].
    destruct (t_retry (ti_task x)) as [rc|]; [|go]. destruct (retriable e); [|go]. intros s K.
    apply post_bind; [assert (fz false (retry_data E t rc)) as F by go; by apply F|]. intros d s1 Hd K1 _. destruct d as [e'|[c iv]]; [by apply post_ret|].
    assert (exists x1, s_tis s1 !! t = Some x1 /\ ti_wd x1 !! "_retryOnErrorAttr" = Some (WRetry c iv)) as (x1 & Hx1 & Hw1).
    { unfold retry_data in Hd. apply bind_ok in Hd as (x0 & s0 & Hg & Hd). unfold get_ti, bind, get, ret, panic in Hg.
      destruct (s_tis s !! t) as [x0'|] eqn:Hx0; [|done]. injection Hg as -> <-. destruct (ti_wd x0 !! "_retryOnErrorAttr") as [[| | |c0 iv0]|] eqn:Hw.
      1-3: by inversion Hd.
      - injection Hd as -> -> <-. by exists x0.
      - apply bind_ok in Hd as ([|c1] & s3 & H3 & Hd); [by inversion Hd|]. apply bind_ok in Hd as ([|iv1] & s4 & H4 & Hd); [by inversion Hd|].
        apply bind_ok in Hd as (u & s5 & Hs & Hd). injection Hs as _ <-. injection Hd as -> -> <-. cbn. rewrite lookup_alter.
        assert (V : forall c, fz true (retry_value E t c)) by (intros; go).
        pose proof (V (rc_count rc) s K) as (K3 & X3 & _). rewrite H3 in K3, X3. pose proof (V (rc_interval rc) s3 K3) as (_ & X4 & _). rewrite H4 in X4.
        destruct (proj1 (ext_trans _ _ _ _ X3 X4) _ _ Hx0) as (x4 & Hx4 & _). cbn in Hx4. rewrite Hx4. eexists. split; [done|]. cbn. by rewrite lookup_insert. }
    assert (G : get_ti t s1 = (Ok x1, s1)) by (unfold get_ti, bind, get; by rewrite Hx1).
    unfold retry_bound, bind. rewrite G. cbn. rewrite Hw1. apply post_retry_loop; [done|]. exists x1, (WRetry c iv). done.
  Qed.
  Lemma fz_iter_step t it : fz false (iter_step E t it).
  Proof.
    unfold iter_step. destruct (iter_next it) as [it' o]. apply fz_bind; [go|]. intros _. destruct o as [[[k v] ix]|]; [|go].
    apply fz_bind; [go|]. intros _. apply fz_bind; [apply fz_eval_retry|]. intros [|[]]; go.
  Qed.
  Lemma fz_beh_eval ty t : fz false (beh_eval E ty t).
  Proof.
    destruct ty; cbn [beh_eval].
    - unfold basic_eval. apply fz_bind; [go|]. intros x. destruct (bool_decide _); [go|]. apply fz_bind; [apply fz_eval_retry|intros; go].
    - unfold iter_eval. apply fz_bind; [go|]. intros x. destruct (bool_decide _); [go|]. destruct (ti_wd x !! "_iterator") as [[]|]; try (by go).
      + apply fz_iter_step.
      + destruct (t_loop (ti_task x)); [|go]. apply fz_bind; [go|]. intros [|v]; [go|]. destruct v; try (by go); (destruct (make_iter E _); [|go]);
        (apply fz_bind; [go|]; intros _; apply fz_bind; [go|]; intros _; apply fz_iter_step).
    - unfold dw_eval. apply fz_bind; [go|]. intros x. destruct (bool_decide _); [go|]. apply fz_bind; [go|]. intros _.
      apply fz_bind; [apply fz_eval_retry|]. intros [|[]]; go.
  Qed.
  Lemma fz_beh_post ty t : fz false (beh_post E ty t).
  Proof.
    destruct ty; cbn [beh_post].
    - unfold basic_post. apply fz_bind; [apply fz_post|]. intros r. apply fz_bind; [go|]. intros x. destruct r as [e|]; [|go].
      destruct e; try (by go). destruct (t_retry (ti_task x)); [|go]. apply fz_bind; [go|]. intros [|[z iv]]; [go|].
      destruct (0 <? z)%Z; [|go]. apply fz_bind; [go|]. intros _. apply fz_bind; [apply fz_eval_retry|intros; go].
    - unfold iter_post. apply fz_bind; [apply fz_post|]. intros []; go.
    - unfold dw_post. apply fz_bind; [go|]. intros _. apply fz_bind; [apply fz_post|]. intros []; go.
  Qed.
  Lemma fz_recover t m : fz false (exec_recover E t m).
  Proof.
    unfold exec_recover. apply fz_bind; [go|]. intros x. apply fz_bind; [go|]. intros y. cbv zeta. destruct (i_handling y); [go|].
    apply fz_bind; [go|]. intros _. apply fz_global, fz_enter_top.
  Qed.
  Lemma fz_exec_first t : fz false (exec_first E t).
  Proof.
    unfold exec_first. apply fz_bind; [go|]. intros x. cbv zeta. destruct (bool_decide _); [go|].
    apply fz_bind; [destruct (bool_decide _); [apply fz_beh_post|apply fz_beh_eval]|].
    intros [e|[]]; try (by go). apply fz_bind; [apply fz_handle_error|intros; go].
  Qed.
  Lemma fz_done_first t : fz false (done_first E t).
  Proof.
    unfold done_first. apply fz_bind; [go|]. intros x. cbv zeta. apply fz_bind.
    { destruct (bool_decide _); go; apply fz_beh_done. }
    intros [e|[nt es]].
    - apply fz_bind; [go|]. intros y. apply fz_bind; [go|]. intros _. apply fz_bind; [apply fz_global, fz_enter_top|intros; go].
    - apply fz_bind; [go|]. intros fd. apply fz_bind; [go|]. intros y. destruct (_ || _); go.
  Qed.
  Lemma fz_piece th : fz false (piece E th).
  Proof.
    assert (Hr : forall t msg, fz false (bind (exec_recover E t msg) (fun _ => ret ThEnd))).
    { intros. apply fz_bind; [apply fz_recover|intros; go]. }
    destruct th as [w t|t|t es|t| | |]; cbn [piece]; [| | | |go..].
    - apply fz_bind; [go|]. intros y. apply fz_bind; [go|]. intros _. apply fz_catch; [apply fz_exec_first|by apply Hr].
    - apply fz_catch; [|by apply Hr]. apply fz_bind; [apply fz_done_first|intros; go].
    - apply fz_catch; [|by apply Hr]. apply fz_bind; [go|]. intros x. apply fz_bind; [apply fz_enter_top|intros; go].
    - apply fz_catch; [|by apply Hr]. apply fz_bind; [go|]. intros x. go.
  Qed.


  (** *** Runs *)
  Lemma fz_exec_body t : fz false (exec_body E t).
  Proof.
    unfold exec_body. apply fz_bind; [go|]. intros x. cbv zeta.
    destruct (bool_decide _); [go|]. apply fz_bind; [destruct (bool_decide _); [apply fz_beh_post|apply fz_beh_eval]|].
    intros [e|[]]; try (by go); [apply fz_handle_error|apply fz_done, fz_enter_top..].
  Qed.
  Lemma fz_exec t : fz false (exec_task E t).
  Proof. apply fz_catch; [apply fz_exec_body|apply fz_recover]. Qed.
  Lemma fz_do_step : fz false (do_step E).
  Proof.
    unfold do_step. apply fz_bind; [go|]. intros _. apply fz_bind; [go|]. intros x. destruct (bool_decide _); [|go].
    apply fz_bind; [go|]. intros s. destruct (s_queue s) as [|[w t] q]; [go|]. apply fz_bind; [go|]. intros y.
    apply fz_bind; [go|]. intros _. apply fz_bind; [go|]. intros _. apply fz_bind; [apply fz_exec|intros; go].
  Qed.
  Lemma fz_record : fz false (record_state E).
  Proof. go. Qed.
  Lemma fz_run_loop n k : fz false (run_loop E n k).
  Proof.
    revert k. induction n as [|n IH]; intros k; cbn [run_loop]; [go|]. apply fz_bind; [go|]. intros x. destruct (_ <? _)%Z; [|go].
    apply fz_bind; [apply fz_do_step|]. intros more. apply fz_bind; [destruct (e_ext E); go|]. intros _. destruct more; [apply IH|go].
  Qed.
  Lemma fz_flow_asserts id ty b k l f : fz false (flow_asserts E id ty b k l f).
  Proof. revert k f. induction l as [|a l IH]; intros k f; cbn [flow_asserts]; unfold ext_flow; go; apply IH. Qed.
  Lemma fz_finish_run ro k : fz false (run_finish E ro k).
  Proof.
    assert (forall ty, fz false (apply_flow_asserts E ty)) as Ha.
    { intros ty. unfold apply_flow_asserts. go. apply fz_flow_asserts. }
    unfold run_finish, flow_state. go; apply Ha.
  Qed.
  Lemma fz_prepare ro ins : fz false (run_prepare E ro ins).
  Proof. unfold run_prepare, flow_state, start. go; apply fz_start_instance. Qed.
  Lemma fz_head ro : fz false (run_head E ro).
  Proof. unfold run_head. go. Qed.
  Lemma fz_action ro ins : fz false (run_action E ro ins).
  Proof.
    unfold run_action, run_body. apply fz_bind; [apply fz_prepare|]. intros _. apply fz_bind; [apply fz_head|]. intros _.
    apply fz_finally; [|go]. cbv zeta. apply fz_bind; [apply fz_run_loop|]. intros. apply fz_finish_run.
  Qed.
End Bound.

(** ** The bounds are not reached *)
Section Ends.
  Context (E : env) (d : defn) (uri : string).

  Lemma kst_init : kst (init_st d uri).
  Proof.
    split_and!.
    - done.
    - intros j Hj. apply lookup_singleton_ne. cbn in Hj. lia.
    - intros i y id t Hy. cbn in Hy. apply lookup_singleton_Some in Hy as [_ <-]. done.
  Qed.
  Lemma kst_running s : running E d uri s -> kst s.
  Proof.
    induction 1 as [ins|ro ins H|s H IH|s H IH].
    - apply (fz_start_instance E false), kst_init.
    - assert (fz E false (run_begin E ro ins)) as Hb by (unfold run_begin; apply fz_bind; [apply fz_prepare|intros; apply fz_head]). apply Hb, kst_init.
    - by apply fz_do_step.
    - by apply fz_record.
  Qed.

  Definition node (a : task) : bool * string := (t_eh a, t_id a).
  Lemma find_task_in ts id k : find_task ts id = Some k -> k ∈ ts /\ t_id k = id.
  Proof.
    unfold find_task. intros H. apply bind_Some in H as ([n k'] & H & [= <-]). apply list_find_Some in H as (H & Hid & _). split; [by eapply elem_of_list_lookup_2|done].
  Qed.
  Lemma leads_edge d' a b : graph_ok d' -> NoDup (t_id <$> all_tasks d') -> a ∈ all_tasks d' -> b ∈ all_tasks d' -> leads d' a b -> edge d' (node a) (node b).
  Proof.
    intros G N Ha Hb (l & k & Hl & Hk & Hid). pose proof (proj1 (graph_to _ _ _ G Ha) Hl) as (H1 & H2 & H3).
    assert (k ∈ all_tasks d' /\ t_id k = l_to l /\ t_eh k = l_eh l) as (Hk1 & Hk2 & Hk3).
    { unfold link_target in Hk. unfold all_tasks. destruct (l_eh l) eqn:El.
      - unfold get_eh_task in Hk. destruct (d_eh d') as [h|] eqn:Eh; [|done]. apply find_task_in in Hk as [Hk1 Hk2]. split_and!; [|done|].
        + apply elem_of_app. by right.
        + by eapply so_eh; [apply (proj2 G)|].
      - apply find_task_in in Hk as [Hk1 Hk2]. split_and!; [|done|].
        + apply elem_of_app. by left.
        + by eapply so_eh; [apply (proj1 G)|]. }
    assert (k = b) as <-.
    { apply elem_of_list_lookup in Hk1 as (m1 & M1). apply elem_of_list_lookup in Hb as (m2 & M2).
      assert (m1 = m2) as -> by (eapply (NoDup_lookup (t_id <$> all_tasks d')); [done|by rewrite list_lookup_fmap, M1|rewrite list_lookup_fmap, M2; cbn; by f_equal]).
      congruence. }
    exists l. unfold node. cbn. split_and!; congruence.
  Qed.
  Lemma chain_in s i d' p a : chain s i d' p -> a ∈ p -> skipped_in s i a.
  Proof. induction 1; intros Ha; [by apply elem_of_nil in Ha|]. apply elem_of_cons in Ha as [->|Ha]; auto. Qed.
  Lemma chain_path s i d' b p : graph_ok d' -> NoDup (t_id <$> all_tasks d') -> (forall a, a ∈ b :: p -> a ∈ all_tasks d') ->
    chain s i d' (b :: p) -> forall a, a ∈ p -> tc (edge d') (node a) (node b).
  Proof.
    intros G N. revert b. induction p as [|k p IH]; intros b Hin Hc a Ha; [by apply elem_of_nil in Ha|]. inversion Hc as [|? ? _ Hl Hc']; subst.
    assert (edge d' (node k) (node b)) as He.
    { apply leads_edge; [done..| | |by apply Hl]; apply Hin; [right; left|left]. }
    apply elem_of_cons in Ha as [->|Ha]; [by apply tc_once|]. eapply tc_r; [|exact He]. apply IH; [|done..]. intros a' Ha'. apply Hin. by right.
  Qed.
  Lemma chain_tail s i d' p1 p2 : chain s i d' (p1 ++ p2) -> chain s i d' p2.
  Proof. induction p1; [done|]. intros H. inversion H; subst. auto. Qed.
  Lemma twice (p : list task) : ~ NoDup (t_id <$> p) -> exists p1 a p2 b, p = p1 ++ a :: p2 /\ b ∈ p2 /\ t_id b = t_id a.
  Proof.
    induction p as [|a p IH]; intros H; [by destruct H; constructor|]. destruct (decide (t_id a ∈ t_id <$> p)) as [Hin|Hin].
    - apply elem_of_list_fmap in Hin as (b & Hb & Hin). by exists [], a, p, b.
    - destruct IH as (p1 & a' & p2 & b & -> & Hb & Hab).
      + intros Hn. apply H. cbn. by constructor.
      + by exists (a :: p1), a', p2, b.
  Qed.

  Lemma not_deep s : built d -> built_env E -> NoDup (t_id <$> all_tasks d) -> (forall n u d', e_def E n u = DOk d' -> NoDup (t_id <$> all_tasks d')) ->
    visited E d uri s -> deep s -> False.
  Proof.
    intros Hb HE Nd NE V (i & y & p & Hy & Hc & Hl). destruct (visited_reach _ _ _ _ V) as [c R].
    assert (G : graph_ok (i_def y)).
    { eapply (inv_defs E d uri graph_ok); [by apply built_graph|intros; by eapply built_graph, HE|exact R|by exists y]. }
    assert (N : NoDup (t_id <$> all_tasks (i_def y))).
    { eapply (inv_defs E d uri (fun d' => NoDup (t_id <$> all_tasks d'))); [done|exact NE|exact R|by exists y]. }
    assert (Hin : forall a, a ∈ p -> a ∈ all_tasks (i_def y) /\ EvTaskUpd i (t_id a) TSkipped ∈ s_log s).
    { intros a Ha. destruct (chain_in _ _ _ _ _ Hc Ha) as (t & x & Hx & Hi & Ht & He). split; [|done].
      destruct (inv_task _ _ _ _ _ R t i a) as (d' & h & (y' & Hy' & <- & _) & Hk & _); [by exists x|]. congruence. }
    assert (Uniq : forall a b, a ∈ all_tasks (i_def y) -> b ∈ all_tasks (i_def y) -> t_id a = t_id b -> a = b).
    { intros a b Ha Hb' Hab. apply elem_of_list_lookup in Ha as (m1 & M1). apply elem_of_list_lookup in Hb' as (m2 & M2).
      assert (m1 = m2) as -> by (eapply (NoDup_lookup (t_id <$> all_tasks (i_def y))); [done|by rewrite list_lookup_fmap, M1|rewrite list_lookup_fmap, M2; cbn; by f_equal]).
      congruence. }
    destruct (twice p) as (p1 & a & p2 & b & -> & Hb2 & Hab).
    { intros Hn. assert (length (t_id <$> p) <= length (t_id <$> all_tasks (i_def y)))%nat as Hle; [|rewrite !fmap_length in Hle; lia].
      apply submseteq_length, NoDup_submseteq; [done|]. intros k Hk. apply elem_of_list_fmap in Hk as (a & -> & Ha). apply elem_of_list_fmap_1. by apply Hin. }
    assert (b = a) as -> by (apply Uniq; [apply Hin..|done]; apply elem_of_app; right; [by right|left]).
    assert (B : behind_cycle (i_def y) a).
    { exists (node a). split; [|constructor]. eapply chain_path; [done|done| |by eapply chain_tail|done]. intros k Hk. apply Hin, elem_of_app. by right. }
    destruct (Hin a) as [Ha He]; [apply elem_of_app; right; left|].
    destruct (cycle_never_runs E d uri s i y (t_id a) Hb HE V Hy) as [_ Hno].
    { intros tk Hk Hid. by rewrite (Uniq tk a). }
    specialize (Hno TSkipped). cut (TSkipped = TEntered); [done|]. apply Hno. unfold trace. by rewrite elem_of_list_In, <- in_rev, <- elem_of_list_In.
  Qed.

  Context (Hb : built d) (HE : built_env E) (Nd : NoDup (t_id <$> all_tasks d))
    (NE : forall n u d', e_def E n u = DOk d' -> NoDup (t_id <$> all_tasks d')).
  Local Set Default Proof Using "Type*".

  Lemma start_ends ins : (start_instance E 0 ins (init_st d uri)).1 <> Fuel.
  Proof.
    destruct (fz_start_instance E false 0 ins _ kst_init) as (_ & _ & F & _). intros H. eapply not_deep; [done..| |by apply F].
    left. apply (running_start E d uri ins).
  Qed.
  Lemma step_ends s : running E d uri s -> (do_step E s).1 <> Fuel.
  Proof.
    intros R. destruct (fz_do_step E s (kst_running _ R)) as (_ & _ & F & _). intros H. eapply not_deep; [done..| |by apply F].
    left. by apply running_step.
  Qed.
  Lemma flow_ends ro ins : (run_flow E ro d uri ins).1 <> Fuel.
  Proof.
    destruct (fz_action E ro ins _ kst_init) as (_ & _ & F & _). intros H. eapply not_deep; [done..| |by apply F]. right. by exists ro, ins.
  Qed.
End Ends.
Lemma step_free E d uri s : running E d uri s -> e_conc E = false -> (do_step E s).1 <> Blocked.
Proof. intros R Hc. destruct (fz_do_step E s (kst_running _ _ _ _ R)) as (_ & _ & _ & F). intros H. specialize (F H). congruence. Qed.
Lemma flow_free E ro d uri ins : e_conc E = false -> (run_flow E ro d uri ins).1 <> Blocked.
Proof. intros Hc. destruct (fz_action E ro ins _ (kst_init d uri)) as (_ & _ & _ & F). intros H. specialize (F H). congruence. Qed.
