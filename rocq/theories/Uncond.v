(** Flows whose links are all unconditional: no task is ever skipped, so no goroutine ever waits for its own lock. No Go counterpart (proof infrastructure;
    [unconditional] and [plain_flow] are words for theorem statements). *)
From Verif Require Export Locks StepsEngine.
Local Open Scope Z_scope.

(** The link is followed whenever its task has succeeded. *)
Definition unconditional (l : link) : Prop := l_type l = LtDependency \/ l_type l = LtLabel.
(** All links of the flow and of its error handler are. *)
Definition plain_flow (d : defn) : Prop := forall tk l, tk ∈ all_tasks d -> l ∈ t_to tk -> unconditional l.

Definition ptask (tk : task) : Prop := forall l, l ∈ t_to tk -> unconditional l.
Definition glinks (m : gmap nat Z) : Prop := forall k z, m !! k = Some z -> z = LUnset \/ z = LTrue.
Definition gnode (x : tinst) : Prop := ptask (ti_task x) /\ ti_status x <> TSkipped.
Definition ginst (y : inst) : Prop := plain_flow (i_def y) /\ glinks (i_links y).
Definition gev (e : event) : Prop := forall i id, e <> EvTaskUpd i id TSkipped.
Record plain (s : st) : Prop := mk_plain {
  p_insts : forall i y, s_insts s !! i = Some y -> ginst y;
  p_tis : forall t x, s_tis s !! t = Some x -> gnode x;
  p_log : Forall gev (s_log s)
}.
Definition pes (es : list entry) : Prop := forall e, e ∈ es -> ptask e.1.

(** [m] keeps the state plain, and its result meets [P]. *)
Definition kp {A} (P : A -> Prop) (m : M A) : Prop := forall s, plain s -> plain (m s).2 /\ forall a, (m s).1 = Ok a -> P a.
Definition yes {A} : A -> Prop := fun _ => True.

Section Kp.
  Context (E : env).
  Lemma kp_ret {A} (P : A -> Prop) a : P a -> kp P (ret a).
  Proof. intros H s Hs. split; [done|]. by intros b [= <-]. Qed.
  Lemma kp_panic {A} (P : A -> Prop) m : kp P (panic m).
  Proof. intros s Hs. by split. Qed.
  Lemma kp_fuel {A} (P : A -> Prop) : kp P out_of_fuel.
  Proof. intros s Hs. by split. Qed.
  Lemma kp_weak {A} (P Q : A -> Prop) m : (forall a, P a -> Q a) -> kp P m -> kp Q m.
  Proof. intros H Hm s Hs. destruct (Hm s Hs) as [H1 H2]. split; [done|]. intros a Ha. by apply H, H2. Qed.
  Lemma kp_bindp {A B} (P : A -> Prop) (Q : B -> Prop) (m : M A) k : kp P m -> (forall a, P a -> kp Q (k a)) -> kp Q (bind m k).
  Proof.
    intros Hm Hk s Hs. destruct (Hm s Hs) as [H1 H2]. unfold bind. destruct (m s) as [[a| | |] s1]; cbn in *; [|by split..]. apply Hk; [by apply H2|done].
  Qed.
  Lemma kp_bind {A B} (Q : B -> Prop) (m : M A) k : kp yes m -> (forall a, kp Q (k a)) -> kp Q (bind m k).
  Proof. intros Hm Hk. eapply kp_bindp; [exact Hm|]. auto. Qed.
  Lemma kp_catch {A} (P : A -> Prop) m h : kp P m -> (forall e, kp P (h e)) -> kp P (catch m h).
  Proof.
    intros Hm Hh s Hs. destruct (Hm s Hs) as [H1 H2]. unfold catch. destruct (m s) as [[a|e| |] s1]; cbn in *; [by split| |by split..]. by apply Hh.
  Qed.
  Lemma kp_finally {A} (P : A -> Prop) m f : kp P m -> kp yes f -> kp P (finally m f).
  Proof.
    intros Hm Hf. unfold finally. eapply (kp_bindp (fun r => match r with inr x => P x | inl _ => True end)).
    - apply kp_catch; [|intros e; by apply kp_ret]. eapply kp_bindp; [exact Hm|]. intros a Ha. by apply kp_ret.
    - intros r Hr. apply kp_bind; [done|]. intros _. destruct r; [apply kp_panic|by apply kp_ret].
  Qed.
  Lemma kp_iterM {A} (f : A -> M unit) l : (forall x, kp yes (f x)) -> kp yes (iterM f l).
  Proof. intros Hf. induction l; simpl; [by apply kp_ret|]. apply kp_bind; auto. Qed.
  Lemma kp_get : kp yes get.
  Proof. intros s Hs. by split. Qed.
  Lemma kp_modify f : (forall s, s_insts (f s) = s_insts s) -> (forall s, s_tis (f s) = s_tis s) -> (forall s, s_log (f s) = s_log s) -> kp yes (modify f).
  Proof. intros H1 H2 H3 s [A B C]. split; [|done]. cbn. split; by rewrite ?H1, ?H2, ?H3. Qed.
  Lemma kp_log e : gev e -> kp yes (log_ev e).
  Proof. intros He s [A B C]. split; [|done]. split; [done..|]. by constructor. Qed.
  Lemma kp_get_ti t : kp gnode (get_ti t).
  Proof. intros s Hs. cbv [get_ti bind get]. destruct (s_tis s !! t) as [x|] eqn:Hx; [|by split]. split; [done|]. intros a [= <-]. by eapply p_tis. Qed.
  Lemma kp_get_inst i : kp ginst (get_inst i).
  Proof. intros s Hs. cbv [get_inst bind get]. destruct (s_insts s !! i) as [x|] eqn:Hx; [|by split]. split; [done|]. intros a [= <-]. by eapply p_insts. Qed.
  Lemma kp_upd_ti t f : (forall x, gnode x -> gnode (f x)) -> kp yes (upd_ti t f).
  Proof.
    intros Hf s [A B C]. split; [|done]. split; [done| |done]. cbn. intros t' x. destruct (decide (t = t')) as [<-|].
    - rewrite lookup_alter. destruct (s_tis s !! t) eqn:Hx; [|done]. intros [= <-]. apply Hf. by eapply B.
    - rewrite lookup_alter_ne by done. apply B.
  Qed.
  Lemma kp_upd_inst i f : (forall y, ginst y -> ginst (f y)) -> kp yes (upd_inst i f).
  Proof.
    intros Hf s [A B C]. split; [|done]. split; [|done..]. cbn. intros i' y. destruct (decide (i = i')) as [<-|].
    - rewrite lookup_alter. destruct (s_insts s !! i) eqn:Hx; [|done]. intros [= <-]. apply Hf. by eapply A.
    - rewrite lookup_alter_ne by done. apply A.
  Qed.
  Lemma kp_status t z : z <> TSkipped -> kp yes (set_task_status t z).
  Proof.
    intros Hz. unfold set_task_status. eapply kp_bindp; [apply kp_get_ti|]. intros x _. apply kp_bind; [apply kp_upd_ti; intros y [Hy _]; by split|].
    intros _. apply kp_log. intros i id He. apply Hz. by injection He.
  Qed.
  Lemma glinks_insert m k z : glinks m -> z = LUnset \/ z = LTrue -> glinks (<[k := z]> m).
  Proof. intros H Hz k' z'. rewrite lookup_insert_Some. intros [[_ <-]|[_ ?]]; [done|by eapply H]. Qed.
  Lemma glinks_delete m k : glinks m -> glinks (delete k m).
  Proof. intros H k' z'. rewrite lookup_delete_Some. intros [_ ?]. by eapply H. Qed.
  Lemma kp_focl i l : kp yes (find_or_create_link i l).
  Proof.
    unfold find_or_create_link. eapply kp_bindp; [apply kp_get_inst|]. intros x _. destruct (i_links x !! l_id l); [by apply kp_ret|].
    apply kp_bind; [|intros; by apply kp_log]. apply kp_upd_inst. intros y [H1 H2]. split; [done|]. apply glinks_insert; auto.
  Qed.
  Lemma kp_release i tk : kp yes (release_task i tk).
  Proof.
    unfold release_task. eapply kp_bindp; [apply kp_get_inst|]. intros y _. apply kp_bind; [by apply kp_upd_inst|]. intros _.
    apply kp_bind; [by apply kp_log|]. intros _. apply kp_iterM. intros l. eapply kp_bindp; [apply kp_get_inst|]. intros z _.
    apply kp_bind; [|intros; by apply kp_log]. apply kp_upd_inst. intros w [H1 H2]. split; [done|]. by apply glinks_delete.
  Qed.
  Lemma kp_new i tk : ptask tk -> kp yes (new_tinst i tk).
  Proof.
    intros Hk. unfold new_tinst. destruct (t_act tk); [|apply kp_panic]. intros s [A B C]. split; [|done]. split; [done| |done]. cbn.
    intros t x. rewrite lookup_insert_Some. intros [[_ <-]|[_ ?]]; [by split|by eapply B].
  Qed.
  Lemma kp_foct i tk : ptask tk -> kp yes (find_or_create_task i tk).
  Proof.
    intros Hk. unfold find_or_create_task. eapply kp_bindp; [apply kp_get_inst|]. intros y _. destruct (i_tasks y !! t_id tk); [by apply kp_ret|].
    apply kp_bind; [by apply kp_new|]. intros t. apply kp_bind; [by apply kp_upd_inst|]. intros _. apply kp_bind; [by apply kp_log|]. intros _. by apply kp_ret.
  Qed.
  Lemma kp_from t : kp yes (from_links t).
  Proof. unfold from_links. eapply kp_bindp; [apply kp_get_ti|]. intros x _. apply kp_bind; [apply kp_iterM; intros; apply kp_focl|]. intros _. by apply kp_ret. Qed.
  Lemma kp_to t : kp (fun ls => forall l, l ∈ ls -> unconditional l) (to_links t).
  Proof. unfold to_links. eapply kp_bindp; [apply kp_get_ti|]. intros x Hx. apply kp_bind; [apply kp_iterM; intros; apply kp_focl|]. intros _. apply kp_ret. apply Hx. Qed.

  (** A link is set to false and then to true. *)
  Lemma kp_follow {A} i l (r : A) : kp yes (bind (set_link_status E i l LFalse) (fun _ => bind (set_link_status E i l LTrue) (fun _ => ret r))).
  Proof.
    intros s [A1 B1 C1]. split; [|done]. cbv [set_link_status bind get_inst get upd_inst modify log_ev ret panic]. destruct (s_insts s !! i) as [y|] eqn:Hy; [|by split].
    rewrite (bool_decide_eq_false_2 (LFalse = LTrue)), (bool_decide_eq_true_2 (LTrue = LTrue)) by done. cbn. rewrite lookup_alter, Hy. cbn.
    assert (H : forall l', Forall gev l' -> plain (set_s_log (l' ++ s_log s) (set_s_insts (alter (fun x => set_i_links (<[l_id l := LTrue]> (i_links x)) x) i
      (alter (fun x => set_i_links (<[l_id l := LFalse]> (i_links x)) x) i (s_insts s))) s))).
    { intros l' Hl. split; [|exact B1|by apply Forall_app]. cbn. intros i' y'. destruct (decide (i = i')) as [<-|].
      - rewrite !lookup_alter, Hy. intros [= <-]. destruct (A1 _ _ Hy) as [H1 H2]. split; [exact H1|]. cbn. rewrite insert_insert. apply glinks_insert; auto.
      - rewrite !lookup_alter_ne by done. apply A1. }
    unfold need_cov. destruct (e_icpt E) as [c|]; [destruct (ic_cov c)|]; cbn.
    - apply (H [_; _; _; _; _]). by repeat constructor.
    - apply (H [_; _; _]). by repeat constructor.
    - apply (H [_; _; _; _]). by repeat constructor.
  Qed.

  Ltac side := first [ done | by intros ? [? ?]; split | (intros ? ? ?; discriminate) ].
  Ltac go := repeat first
    [ (apply kp_ret; exact I) | apply kp_panic | apply kp_fuel | apply kp_get | (apply kp_log; intros ? ? ?; discriminate)
    | apply kp_get_ti | apply kp_get_inst
    | (apply kp_weak with (P := gnode); [done|]; apply kp_get_ti) | (apply kp_weak with (P := ginst); [done|]; apply kp_get_inst)
    | (apply kp_status; discriminate) | apply kp_focl | apply kp_release | apply kp_from
    | (eapply kp_weak; [|apply kp_to]; done)
    | (apply kp_modify; intros ?; reflexivity) | (apply kp_upd_ti; side) | (apply kp_upd_inst; side) | (apply kp_iterM; intros ?)
    | assumption
    | lazymatch goal with
      | |- kp _ (bind (get_ti _) _) => eapply kp_bindp; [apply kp_get_ti|intros ? ?]
      | |- kp _ (bind (get_inst _) _) => eapply kp_bindp; [apply kp_get_inst|intros ? ?]
      | |- kp _ (bind _ _) => apply kp_bind; [|intros ?]
      | |- kp _ (catch _ _) => apply kp_catch; [|intros ?]
      | |- kp _ (finally _ _) => apply kp_finally
      | |- kp _ (let _ := _ in _) => cbv zeta
      | |- kp _ (match ?x with _ => _ end) => destruct x
      | |- kp _ (ext _ _) => unfold ext
      | |- kp _ tick => unfold tick
      | |- kp _ (set_wd _ _ _) => unfold set_wd
      | |- kp _ (set_attrs _ _ _) => unfold set_attrs
      | |- kp _ (set_value _ _ _ _) => unfold set_value
      | |- kp _ (set_values _ _ _) => unfold set_values
      | |- kp _ (post_flow_event _ _) => unfold post_flow_event
      | |- kp _ (get_return_data _) => unfold get_return_data
      | |- kp _ (set_flow_status _ _ _) => unfold set_flow_status
      | |- kp _ (track_task _) => unfold track_task
      | |- kp _ (need_cov _ _ _) => unfold need_cov
      | |- kp _ (schedule_eval _) => unfold schedule_eval
      | |- kp _ (record_state _) => unfold record_state
      | |- kp _ (append_error_data _ _ _) => unfold append_error_data
      | |- kp _ (set_task_error _ _ _) => unfold set_task_error
      | |- kp _ (add_activity_coverage _ _) => unfold add_activity_coverage
      | |- kp _ (apply_settings _ _) => unfold apply_settings
      | |- kp _ (host_of _) => unfold host_of
      | |- kp _ clear_tasks => unfold clear_tasks
      | |- kp _ (complete_flow _ _) => unfold complete_flow
      | |- kp _ (eval_link _ _ _) => unfold eval_link
      | |- kp _ (flow_task_done _) => unfold flow_task_done
      | |- kp _ (parent_info _ _) => unfold parent_info
      | |- kp _ (reply _ _ _) => unfold reply
      | |- kp _ (return_ _ _ _) => unfold return_
      | |- kp _ (icpt_id _) => unfold icpt_id
      | |- kp _ (apply_input_mapper _ _) => unfold apply_input_mapper
      | |- kp _ (apply_input_icpt _ _) => unfold apply_input_icpt
      | |- kp _ (set_exec_status _ _ _) => unfold set_exec_status
      | |- kp _ (apply_output_icpt _ _) => unfold apply_output_icpt
      | |- kp _ (apply_output_mapper _ _) => unfold apply_output_mapper
      | |- kp _ (handle_accumulation _ _) => unfold handle_accumulation
      | |- kp _ (guard_err _ _) => unfold guard_err
      | |- kp _ (recover_eval _ _) => unfold recover_eval
      | |- kp _ (has_output_icpt _ _) => unfold has_output_icpt
      | |- kp _ (retry_value _ _ _) => unfold retry_value
      | |- kp _ (retry_data _ _ _) => unfold retry_data
      | |- kp _ (retry_bound _) => unfold retry_bound
      | |- kp _ (iterate_on _ _ _) => unfold iterate_on
      | |- kp _ (init_index _) => unfold init_index
      | |- kp _ (update_index _) => unfold update_index
      | |- kp _ (check_cond _ _) => unfold check_cond
      end ].

  Lemma kp_entries i es : kp pes (entries_of i es).
  Proof.
    unfold entries_of. eapply kp_bindp; [apply kp_get_inst|]. intros y [Hy _]. destruct (resolve_entries (i_def y) es) as [r|] eqn:Hr; [|apply kp_panic].
    apply kp_ret. intros e He l Hl. eapply Hy; [|exact Hl]. by eapply resolve_entries_in.
  Qed.
  Lemma kp_done_link t i l a : unconditional l -> da_oth a = None ->
    kp (fun r => match r with inr a' => da_oth a' = None | inl _ => True end) (done_link E t i l a).
  Proof.
    intros Hl Ha. unfold done_link. destruct Hl as [-> | ->].
    all: intros s Hs; split; [by apply kp_follow|]; intros r Hr; apply (f_equal fst) in Hr || idtac; destruct (bind _ _ s) as [o s'] eqn:Hb; cbn in Hr; subst o.
    all: apply bind_ok in Hb as (? & ? & _ & Hb); apply bind_ok in Hb as (? & ? & _ & Hb); injection Hb as <- _; done.
  Qed.
  Lemma kp_done_links t i ls a : (forall l, l ∈ ls -> unconditional l) -> da_oth a = None ->
    kp (fun r => match r with inr a' => da_oth a' = None | inl _ => True end) (done_links E t i ls a).
  Proof.
    revert a. induction ls as [|l ls IH]; intros a Hl Ha; cbn [done_links]; [by apply kp_ret|]. eapply kp_bindp; [apply kp_done_link; [apply Hl; left|done]|].
    intros [e|a'] Hr; [by apply kp_ret|]. apply IH; [|done]. intros l' ?. apply Hl. by right.
  Qed.
  Lemma kp_beh_done t : kp (fun r => match r with inr p => pes p.2 | inl _ => True end) (beh_done E t).
  Proof.
    unfold beh_done. eapply kp_bindp; [apply kp_to|]. intros ls Hls. apply kp_bind; [go|]. intros _. eapply kp_bindp; [apply kp_get_ti|]. intros x _. cbv zeta.
    destruct ls as [|l ls]; [apply kp_ret; by intros e ?%elem_of_nil|]. eapply kp_bindp; [apply kp_done_links; done|]. intros [e|a] Ha; [by apply kp_ret|].
    rewrite Ha. apply kp_bind; [go|]. intros es. eapply kp_bindp; [apply kp_entries|]. intros es' He. by apply kp_ret.
  Qed.
  Lemma kp_beh_error t : kp (fun r => r = (false, [])) (beh_error E t).
  Proof.
    unfold beh_error. eapply kp_bindp; [apply kp_to|]. intros ls Hls. eapply kp_bindp; [apply kp_get_ti|]. intros x _.
    assert (existsb is_error_link ls = false) as ->; [|by apply kp_ret]. apply not_true_is_false. intros (l & Hin & Hl)%existsb_exists.
    apply bool_decide_eq_true in Hl. apply elem_of_list_In in Hin. destruct (Hls _ Hin); congruence.
  Qed.
  Lemma scan_plain y ls : glinks (i_links y) -> forall f, (f = true -> ls <> []) -> scan_links (link_status y) ls f <> Some true.
  Proof.
    intros Hg. induction ls as [|l ls IH]; intros f Hf; cbn [scan_links]; [destruct f; [by destruct Hf|done]|].
    assert (H : link_status y l = LUnset \/ link_status y l = LTrue) by (unfold link_status; destruct (i_links y !! l_id l) eqn:Hl; [by eapply Hg|by left]).
    destruct H as [-> | ->]; cbn; [done|]. by apply IH.
  Qed.
  Lemma kp_enter t : kp (fun r => r <> ERSkip) (enter t).
  Proof.
    unfold enter. apply kp_bind; [go|]. intros _. apply kp_bind; [go|]. intros ls. eapply kp_bindp; [apply kp_get_ti|]. intros x _.
    eapply kp_bindp; [apply kp_get_inst|]. intros y [_ Hy]. pose proof (scan_plain y ls Hy (match ls with [] => false | _ => true end) ltac:(by destruct ls)) as Hs.
    destruct (scan_links _ _ _) as [[]|]; [done|apply kp_bind; [go|intros _; by apply kp_ret]|by apply kp_ret].
  Qed.
  Lemma kp_enter_list skip i es : pes es -> kp yes (enter_list E skip i es).
  Proof.
    induction es as [|[tk z] es IH]; intros Hp; cbn [enter_list]; [go|]. apply kp_bind; [apply kp_foct; apply (Hp (tk, z)); left|]. intros t.
    assert (Hp' : pes es) by (intros e ?; apply Hp; by right). specialize (IH Hp').
    eapply kp_bindp; [apply kp_get_ti|]. intros x _. destruct (_ && _); [done|]. eapply kp_bindp; [apply kp_enter|]. intros er He. destruct er; [done| |done].
    apply kp_bind; [go|]. intros [e|]; go.
  Qed.
  Lemma kp_lock {A} (P : A -> Prop) m : kp P m -> kp P (with_lock E m).
  Proof.
    intros Hm. unfold with_lock. destruct (e_conc E); [|done]. apply kp_bind; [go|]. intros s. destruct (s_lock s); [intros s' Hs'; by split|].
    apply kp_bind; [go|]. intros _. apply kp_finally; [done|go].
  Qed.
  Lemma kp_enter_top i es : pes es -> kp yes (enter_top E i es).
  Proof. intros Hp. unfold enter_top. eapply kp_bindp; [apply kp_get_inst|]. intros y _. cbn [enter_tasks]. by apply kp_lock, kp_enter_list. Qed.
  Lemma pes_start ts d : plain_flow d -> (forall tk, tk ∈ ts -> tk ∈ all_tasks d) -> pes (start_entries ts).
  Proof.
    intros Hd Ht e He l Hl. unfold start_entries in He. apply elem_of_list_fmap in He as (tk & -> & Hk). cbn in *.
    apply elem_of_list_In, filter_In in Hk as [Hk _]. eapply Hd; [|exact Hl]. apply Ht. by apply elem_of_list_In.
  Qed.
  Lemma kp_global i e : kp yes (handle_global_error E (enter_top E) i e).
  Proof.
    unfold handle_global_error. eapply kp_bindp; [apply kp_get_inst|]. intros y [Hy _]. destruct (i_handling y); [go|]. apply kp_bind; [go|]. intros _.
    destruct (d_eh (i_def y)) as [h|] eqn:Hh; [|go]. apply kp_bind; [go|]. intros _. apply kp_bind; [|intros; go]. apply kp_enter_top.
    apply (pes_start _ (i_def y)); [done|]. intros tk Hk. unfold all_tasks. rewrite Hh. apply elem_of_app. by right.
  Qed.
  Lemma kp_handle_error t e : kp yes (handle_task_error E t e).
  Proof.
    unfold handle_task_error. apply kp_bind; [go|]. intros _. apply kp_bind; [go|]. intros _. eapply kp_bindp; [apply kp_beh_error|]. intros r ->. cbn [fst snd].
    eapply kp_bindp; [apply kp_get_ti|]. intros x _. cbv zeta. eapply kp_bindp; [apply kp_get_inst|]. intros y _. destruct (i_handling y); [go|].
    apply kp_bind; [go|]. intros _. apply kp_global.
  Qed.
  Context (HE : forall n uri d, e_def E n uri = DOk d -> plain_flow d).
  Local Set Default Proof Using "Type*".
  Lemma kp_start_instance i m : kp yes (start_instance E i m).
  Proof.
    unfold start_instance. eapply kp_bindp; [apply kp_get_inst|]. intros y [Hy _]. apply kp_bind; [go|]. intros h. apply kp_bind; [go|]. intros _.
    apply kp_bind; [go|]. intros _. apply kp_bind; [go|]. intros _. apply kp_bind; [go|]. intros _. apply kp_bind; [|intros; go].
    apply kp_enter_top. apply (pes_start _ (i_def y)); [done|]. intros tk Hk. apply elem_of_app. by left.
  Qed.
  Lemma kp_new_embedded t uri d : plain_flow d -> kp yes (new_embedded t uri d).
  Proof.
    intros Hd. unfold new_embedded. apply kp_bind; [go|]. intros s0. eapply kp_bindp; [apply kp_get_ti|]. intros x _. cbv zeta. apply kp_bind; [|intros; go].
    intros s [A B C]. split; [|done]. split; [|done..]. cbn. intros i y. rewrite lookup_insert_Some. intros [[_ <-]|[_ ?]]; [|by eapply A]. split; [done|].
    intros k z. cbn. by rewrite lookup_empty.
  Qed.
  Lemma kp_start_subflow t uri ins : kp yes (start_subflow E t uri ins).
  Proof.
    unfold start_subflow. apply kp_bind; [go|]. intros n. destruct (e_def E n uri) eqn:Hd; [|go..]. apply kp_bind; [apply kp_new_embedded; by eapply HE|]. intros i.
    apply kp_bind; [apply kp_start_instance|]. intros _. go.
  Qed.
  Lemma kp_run_act t a : kp yes (run_act E t a).
  Proof.
    induction a as [r|n v k IH|m k IH|n v k IH|d e k IH|d e k IH|uri ins k1 IH1 k2 IH2]; cbn [run_act]; (eapply kp_bindp; [apply kp_get_ti|]; intros x _); [go..|].
    apply kp_bind; [apply kp_start_subflow|]. intros []; done.
  Qed.
  Lemma kp_asserts t id b k l : kp yes (run_asserts E t id b k l).
  Proof. revert k. induction l as [|a l IH]; intros k; cbn [run_asserts]; [go|]. destruct (negb b), (as_empty a), (as_type a =? 1)%Z; go; apply IH. Qed.
  Lemma kp_apply_asserts t ty : kp yes (apply_asserts E t ty).
  Proof. unfold apply_asserts. go. apply kp_asserts. Qed.

  (** *** Evaluating *)
  Lemma kp_call t : kp yes (call_activity E t).
  Proof.
    unfold call_activity. apply kp_bind; [go|]. intros x. cbv zeta. apply kp_bind; [go|]. intros _. apply kp_bind; [go|]. intros a.
    apply kp_bind; [apply kp_catch; [apply kp_run_act|intros; go]|]. intros [| |e0|msg]; [go|go| |go]. cbv zeta.
    apply kp_bind; [go|]. intros _. apply kp_bind; [go|]. intros _. apply kp_bind; [go|]. intros y. apply kp_bind; [go|]. intros _.
    apply kp_bind; [go|]. intros _. apply kp_bind; [|intros; go]. apply kp_catch; [|intros; go]. apply kp_bind; [apply kp_apply_asserts|intros; go].
  Qed.
  Lemma kp_finish t : kp yes (finish_activity E t).
  Proof.
    unfold finish_activity. apply kp_bind; [go|]. intros x. unfold guard_err. apply kp_bind; [go|]. intros []; [go|].
    apply kp_bind; [go|]. intros []; [go|]. apply kp_bind; [go|]. intros []; [go|]. apply kp_bind; [apply kp_apply_asserts|]. intros []; go.
  Qed.
  Lemma kp_eval_activity t : kp yes (eval_activity E t).
  Proof.
    unfold eval_activity, recover_eval. apply kp_catch; [|intros; go]. apply kp_bind; [go|]. intros x. destruct (t_act (ti_task x)) as [ac|]; [|go].
    unfold guard_err. apply kp_bind; [go|]. intros []; [go|]. apply kp_bind; [go|]. intros []; [|apply kp_finish].
    apply kp_bind; [go|]. intros []; [go|]. apply kp_bind; [go|]. intros [].
    - apply kp_bind; [go|]. intros _. apply kp_finish.
    - apply kp_bind; [apply kp_call|]. intros [|[]]; [go|apply kp_finish|go].
  Qed.
  Lemma kp_post t : kp yes (post_eval_activity E t).
  Proof.
    unfold post_eval_activity, recover_eval. apply kp_catch; [|intros; go]. apply kp_bind; [go|]. intros x. cbv zeta. apply kp_bind; [go|]. intros p.
    apply kp_bind.
    - destruct p; [|go]. apply kp_bind; [go|]. intros _. apply kp_bind; [apply kp_run_act|]. intros []; go.
    - intros [e|b]; [go|]. apply kp_bind; [go|]. intros y. destruct (ti_rerr y); [go|]. destruct b; [|go]. unfold guard_err.
      apply kp_bind; [go|]. intros []; [go|]. apply kp_bind; [go|]. intros []; [go|]. apply kp_bind; [apply kp_apply_asserts|]. intros []; go.
  Qed.
  Lemma kp_retry_loop n t r : kp yes (retry_loop E n t r).
  Proof.
    revert r. induction n as [|n IH]; intros r; cbn [retry_loop]; (apply kp_bind; [go|]); intros x; destruct r as [e|]; [|go| |go];
      destruct (t_retry (ti_task x)) as [rc|]; [|go| |go]; (destruct (retriable e); [|go]); (apply kp_bind; [go|]); intros [e'|[z iv]]; [go| |go|];
      (destruct (0 <? z)%Z; [|go]); [go|]. apply kp_bind; [go|]. intros _. apply kp_bind; [apply kp_eval_activity|]. apply IH.
  Qed.
  Lemma kp_eval_retry t : kp yes (eval_retry E t).
  Proof.
    unfold eval_retry. apply kp_bind; [apply kp_eval_activity|]. intros r. apply kp_bind; [go|]. intros x. destruct r as [e|]; [|go].
    destruct (t_retry (ti_task x)) as [rc|]; [|go]. destruct (retriable e); [|go]. apply kp_bind; [go|]. intros []; [go|].
    apply kp_bind; [go|]. intros n. apply kp_retry_loop.
  Qed.
  Lemma kp_iter_step t it : kp yes (iter_step E t it).
  Proof.
    unfold iter_step. destruct (iter_next it) as [it' o]. apply kp_bind; [go|]. intros _. destruct o as [[[k v] ix]|]; [|go].
    apply kp_bind; [go|]. intros _. apply kp_bind; [apply kp_eval_retry|]. intros [|[]]; go.
  Qed.
  Lemma kp_beh_eval ty t : kp yes (beh_eval E ty t).
  Proof.
    destruct ty; cbn [beh_eval].
    - unfold basic_eval. apply kp_bind; [go|]. intros x. destruct (bool_decide _); [go|]. apply kp_bind; [apply kp_eval_retry|intros; go].
    - unfold iter_eval. apply kp_bind; [go|]. intros x. destruct (bool_decide _); [go|]. destruct (ti_wd x !! "_iterator") as [[]|]; try (by go).
      + apply kp_iter_step.
      + destruct (t_loop (ti_task x)); [|go]. apply kp_bind; [go|]. intros [|v]; [go|]. destruct v; try (by go); (destruct (make_iter E _); [|go]);
        (apply kp_bind; [go|]; intros _; apply kp_bind; [go|]; intros _; apply kp_iter_step).
    - unfold dw_eval. apply kp_bind; [go|]. intros x. destruct (bool_decide _); [go|]. apply kp_bind; [go|]. intros _.
      apply kp_bind; [apply kp_eval_retry|]. intros [|[]]; go.
  Qed.
  Lemma kp_beh_post ty t : kp yes (beh_post E ty t).
  Proof.
    destruct ty; cbn [beh_post].
    - unfold basic_post. apply kp_bind; [apply kp_post|]. intros r. apply kp_bind; [go|]. intros x. destruct r as [e|]; [|go].
      destruct e; try (by go). destruct (t_retry (ti_task x)); [|go]. apply kp_bind; [go|]. intros [|[z iv]]; [go|].
      destruct (0 <? z)%Z; [|go]. apply kp_bind; [go|]. intros _. apply kp_bind; [apply kp_eval_retry|intros; go].
    - unfold iter_post. apply kp_bind; [apply kp_post|]. intros []; go.
    - unfold dw_post. apply kp_bind; [go|]. intros _. apply kp_bind; [apply kp_post|]. intros []; go.
  Qed.
  Lemma kp_recover t m : kp yes (exec_recover E t m).
  Proof.
    unfold exec_recover. eapply kp_bindp; [apply kp_get_ti|]. intros x _. eapply kp_bindp; [apply kp_get_inst|]. intros y _. cbv zeta. destruct (i_handling y); [go|].
    apply kp_bind; [go|]. intros _. apply kp_global.
  Qed.

  (** *** Goroutines *)
  Definition pth (th : thread) : Prop := match th with ThEnter _ es => pes es | _ => True end.
  Lemma kp_exec_first t : kp pth (exec_first E t).
  Proof.
    unfold exec_first. eapply kp_bindp; [apply kp_get_ti|]. intros x _. cbv zeta. destruct (bool_decide _); [by apply kp_ret|].
    apply kp_bind; [destruct (bool_decide _); [apply kp_beh_post|apply kp_beh_eval]|].
    intros [e|[]]; try (by apply kp_ret).
    - apply kp_bind; [apply kp_handle_error|intros; by apply kp_ret].
    - apply kp_bind; [go|intros; by apply kp_ret].
    - apply kp_bind; [go|intros _]. apply kp_bind; [go|intros; by apply kp_ret].
    - apply kp_bind; [go|intros; by apply kp_ret].
  Qed.
  Definition plo (p : leftover) : Prop := match p with PEnter es => pes es | _ => True end.
  Lemma kp_done_first t : kp plo (done_first E t).
  Proof.
    unfold done_first. eapply kp_bindp; [apply kp_get_ti|]. intros x [_ Hx]. cbv zeta. rewrite bool_decide_eq_false_2 by done.
    eapply kp_bindp; [eapply kp_bindp; [apply kp_beh_done|]; intros d Hd; apply kp_bind; [go|]; intros _; by apply kp_ret|].
    intros [e|[nt es]] Hr.
    - eapply kp_bindp; [apply kp_get_inst|]. intros y _. apply kp_bind; [go|]. intros _. apply kp_bind; [apply kp_global|intros; by apply kp_ret].
    - apply kp_bind; [go|]. intros fd. eapply kp_bindp; [apply kp_get_inst|]. intros y _.
      destruct (_ || _); [apply kp_bind; [go|intros; by apply kp_ret]|by apply kp_ret].
  Qed.
  Lemma kp_piece th : pth th -> kp pth (piece E th).
  Proof.
    assert (Hr : forall t msg, kp pth (bind (exec_recover E t msg) (fun _ => ret ThEnd))).
    { intros. apply kp_bind; [apply kp_recover|intros; by apply kp_ret]. }
    intros Hth. destruct th as [w t|t|t es|t| | |]; cbn [piece]; [| | | |by apply kp_ret..].
    - eapply kp_bindp; [apply kp_get_ti|]. intros y _. apply kp_bind; [go|]. intros _. apply kp_catch; [apply kp_exec_first|by apply Hr].
    - apply kp_catch; [|by apply Hr]. eapply kp_bindp; [apply kp_done_first|]. intros [] H; by apply kp_ret.
    - apply kp_catch; [|by apply Hr]. eapply kp_bindp; [apply kp_get_ti|]. intros x _. apply kp_bind; [by apply kp_enter_top|intros; by apply kp_ret].
    - apply kp_catch; [|by apply Hr]. eapply kp_bindp; [apply kp_get_ti|]. intros x _. apply kp_bind; [go|intros; by apply kp_ret].
  Qed.
  Definition pconc (c : conc) : Prop := plain (c_st c) /\ Forall pth (c_threads c).
  Lemma pconc_step ch c : pconc c -> pconc (conc_step E ch c).
  Proof.
    intros [Hs Ht]. destruct ch as [|k]; cbn [conc_step].
    - unfold take_item. destruct (s_insts (c_st c) !! 0%nat); [|done]. destruct (bool_decide _); [|done]. destruct (s_queue (c_st c)) as [|[w t] q]; [done|].
      split; cbn; [by destruct Hs|]. apply Forall_app. split; [done|]. by repeat constructor.
    - unfold advance. destruct (c_threads c !! k) as [th|] eqn:Hk; [|done]. destruct (kp_piece th ltac:(by eapply Forall_lookup_1 in Ht) _ Hs) as [H1 H2].
      destruct (piece E th (c_st c)) as [o s']. cbn in *. split; [done|]. cbn. apply Forall_insert; [done|]. destruct o; [by apply H2|done..].
  Qed.
  Lemma plain_init d uri : plain_flow d -> plain (init_st d uri).
  Proof.
    intros Hd. split; [|done|by repeat constructor]. cbn. intros i y. rewrite lookup_singleton_Some. intros [_ <-]. split; [done|]. intros k z. cbn. by rewrite lookup_empty.
  Qed.
  Lemma pconc_run d uri ins chs : plain_flow d -> pconc (conc_run E chs (conc_start E d uri ins)).
  Proof.
    intros Hd. assert (H0 : pconc (conc_start E d uri ins)).
    { split; [|constructor]. cbn. apply kp_start_instance. by apply plain_init. }
    revert H0. generalize (conc_start E d uri ins). induction chs as [|ch chs IH]; intros c H; [done|]. apply IH. by apply pconc_step.
  Qed.
  Lemma plain_free d uri ins chs : plain_flow d -> let c := conc_run E chs (conc_start E d uri ins) in
    ThStuck ∉ c_threads c /\ forall i id, EvTaskUpd i id TSkipped ∉ trace (c_st c).
  Proof.
    intros Hd. cbv zeta. destruct (pconc_run d uri ins chs Hd) as [[_ _ Hl] _].
    assert (Hn : forall i id, EvTaskUpd i id TSkipped ∉ trace (c_st (conc_run E chs (conc_start E d uri ins)))).
    { intros i id Hin. unfold trace in Hin. rewrite elem_of_list_In, <- in_rev, <- elem_of_list_In in Hin. rewrite Forall_forall in Hl. by apply (Hl _ Hin i id). }
    split; [|done]. intros Hs. destruct (only_skips_block E d uri ins chs Hs) as (i & id & H). by eapply Hn.
  Qed.
End Kp.
