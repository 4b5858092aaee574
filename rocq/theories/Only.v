(** Once the error handler of the main flow has taken over and nothing else of the flow is queued, waiting or known, only tasks of the error handler run. No Go
    counterpart (proof infrastructure). *)
From Verif Require Export Bound StepsEngine SpecSub.
Local Open Scope Z_scope.

Definition yes {A} : A -> Prop := fun _ => True.

Section Only.
  Context (E : env) (h : ehandler) (ok : nat -> Prop) (N : nat) (L0 : list event).
  Context (Hok : forall t, (N <= t)%nat -> ok t) (HL : forall tk l, tk ∈ eh_tasks h -> l ∈ t_to tk -> l_eh l = true).
  Local Set Default Proof Using "Type*".
  Definition gev (e : event) : Prop := match e with EvAct i id _ _ => i = 0%nat -> id ∈ t_id <$> eh_tasks h | _ => True end.
  Definition gin (i : nat) (y : inst) : Prop :=
    (i = 0%nat -> i_handling y = true /\ d_eh (i_def y) = Some h) /\ (forall id t, i_tasks y !! id = Some t -> ok t) /\ (forall t, i_host y = Some t -> ok t).
  Definition gti (t : nat) (x : tinst) : Prop := ok t -> ti_inst x = 0%nat -> ti_task x ∈ eh_tasks h.
  Definition known := nat -> nat -> task -> Prop.
  Record good (K : known) (s : st) : Prop := mk_good {
    g_insts : forall i y, s_insts s !! i = Some y -> gin i y;
    g_tis : forall t x, s_tis s !! t = Some x -> gti t x;
    g_queue : forall w t, (w, t) ∈ s_queue s -> ok t;
    g_nti : (N <= s_nti s)%nat /\ forall t, (s_nti s <= t)%nat -> s_tis s !! t = None;
    g_log : exists l, s_log s = l ++ L0 /\ Forall gev l;
    g_known : forall t i tk, K t i tk -> exists x, s_tis s !! t = Some x /\ ti_inst x = i /\ ti_task x = tk
  }.
  Definition add (K : known) (t : nat) (x : tinst) : known := fun t' i tk => K t' i tk \/ t' = t /\ i = ti_inst x /\ tk = ti_task x.
  Definition none : known := fun _ _ _ => False.

  Definition kp {A} (K : known) (P : A -> Prop) (m : M A) : Prop := forall s, good K s -> good K (m s).2 /\ forall a, (m s).1 = Ok a -> P a.
  Lemma kp_ret {A} K (P : A -> Prop) a : P a -> kp K P (ret a).
  Proof. intros H s Hs. split; [done|]. by intros b [= <-]. Qed.
  Lemma kp_panic {A} K (P : A -> Prop) m : kp K P (panic m).
  Proof. intros s Hs. by split. Qed.
  Lemma kp_fuel {A} K (P : A -> Prop) : kp K P out_of_fuel.
  Proof. intros s Hs. by split. Qed.
  Lemma kp_weak {A} K (P Q : A -> Prop) m : (forall a, P a -> Q a) -> kp K P m -> kp K Q m.
  Proof. intros H Hm s Hs. destruct (Hm s Hs) as [H1 H2]. split; [done|]. intros a Ha. by apply H, H2. Qed.
  Lemma kp_bindp {A B} K (P : A -> Prop) (Q : B -> Prop) (m : M A) k : kp K P m -> (forall a, P a -> kp K Q (k a)) -> kp K Q (bind m k).
  Proof.
    intros Hm Hk s Hs. destruct (Hm s Hs) as [H1 H2]. unfold bind. destruct (m s) as [[a| | |] s1]; cbn in *; [|by split..]. apply Hk; [by apply H2|done].
  Qed.
  Lemma kp_bind {A B} K (Q : B -> Prop) (m : M A) k : kp K yes m -> (forall a, kp K Q (k a)) -> kp K Q (bind m k).
  Proof. intros Hm Hk. eapply kp_bindp; [exact Hm|]. auto. Qed.
  Lemma kp_catch {A} K (P : A -> Prop) m f : kp K P m -> (forall e, kp K P (f e)) -> kp K P (catch m f).
  Proof.
    intros Hm Hh s Hs. destruct (Hm s Hs) as [H1 H2]. unfold catch. destruct (m s) as [[a|e| |] s1]; cbn in *; [by split| |by split..]. by apply Hh.
  Qed.
  Lemma kp_finally {A} K (P : A -> Prop) m f : kp K P m -> kp K yes f -> kp K P (finally m f).
  Proof.
    intros Hm Hf. unfold finally. eapply (kp_bindp K (fun r => match r with inr x => P x | inl _ => True end)).
    - apply kp_catch; [|intros e; by apply kp_ret]. eapply kp_bindp; [exact Hm|]. intros a Ha. by apply kp_ret.
    - intros r Hr. apply kp_bind; [done|]. intros _. destruct r; [apply kp_panic|by apply kp_ret].
  Qed.
  Lemma kp_iterM {A} K (f : A -> M unit) l : (forall x, kp K yes (f x)) -> kp K yes (iterM f l).
  Proof. intros Hf. induction l; simpl; [by apply kp_ret|]. apply kp_bind; auto. Qed.
  Lemma kp_get K : kp K yes get.
  Proof. intros s Hs. by split. Qed.
  Lemma kp_modify K f : (forall s, s_insts (f s) = s_insts s) -> (forall s, s_tis (f s) = s_tis s) -> (forall s, s_log (f s) = s_log s) ->
    (forall s, s_queue (f s) = s_queue s) -> (forall s, s_nti (f s) = s_nti s) -> kp K yes (modify f).
  Proof. intros H1 H2 H3 H4 H5 s [A B C D F G]. split; [|done]. cbn. split; rewrite ?H1, ?H2, ?H3, ?H4, ?H5; done. Qed.
  Lemma kp_log K e : gev e -> kp K yes (log_ev e).
  Proof. intros He s [A B C D (l & Hl & Fl) G]. split; [|done]. split; try done. exists (e :: l). cbn. split; [by rewrite Hl|by constructor]. Qed.
  Lemma kp_get_ti K t : kp K (gti t) (get_ti t).
  Proof. intros s Hs. cbv [get_ti bind get]. destruct (s_tis s !! t) as [x|] eqn:Hx; [|by split]. split; [done|]. intros a [= <-]. by eapply g_tis. Qed.
  Lemma kp_get_known (K : known) t i tk : K t i tk -> kp K (fun x => ti_inst x = i /\ ti_task x = tk) (get_ti t).
  Proof.
    intros HK s Hs. cbv [get_ti bind get]. destruct (g_known _ _ Hs _ _ _ HK) as (x & -> & H1 & H2). split; [done|]. by intros a [= <-].
  Qed.
  Lemma kp_know {B} K (P : B -> Prop) t k : (forall x, gti t x -> kp (add K t x) P (k x)) -> kp K P (bind (get_ti t) k).
  Proof.
    intros H s Hs. cbv [get_ti bind get]. destruct (s_tis s !! t) as [x|] eqn:Hx; [|by split].
    assert (good (add K t x) s) as Hs'. { destruct Hs as [A B0 C D F G]. split; try done. intros t' i tk [HK|(-> & -> & ->)]; [by apply G|]. by exists x. }
    destruct (H x ltac:(by eapply g_tis) s Hs') as [[A B0 C D F G] H2]. cbn. split; [|done]. split; try done. intros t' i tk HK. apply G. by left.
  Qed.
  Lemma kp_get_inst K i : kp K (gin i) (get_inst i).
  Proof. intros s Hs. cbv [get_inst bind get]. destruct (s_insts s !! i) as [x|] eqn:Hx; [|by split]. split; [done|]. intros a [= <-]. by eapply g_insts. Qed.
  Lemma kp_upd_ti K t f : (forall x, ti_inst (f x) = ti_inst x) -> (forall x, ti_task (f x) = ti_task x) -> kp K yes (upd_ti t f).
  Proof.
    intros H1 H2 s [A B C D F G]. split; [|done]. split; try done; cbn.
    - intros t' x. destruct (decide (t = t')) as [<-|].
      + rewrite lookup_alter. destruct (s_tis s !! t) eqn:Hx; [|done]. intros [= <-]. unfold gti. rewrite H1, H2. by eapply B.
      + rewrite lookup_alter_ne by done. apply B.
    - destruct D as [D1 D2]. split; [done|]. intros t' Ht. specialize (D2 t' Ht). destruct (decide (t = t')) as [<-|]; [by rewrite lookup_alter, D2|by rewrite lookup_alter_ne].
    - intros t' i tk HK. destruct (G _ _ _ HK) as (x & Hx & <- & <-). destruct (decide (t = t')) as [<-|].
      + rewrite lookup_alter, Hx. eexists. split; [done|]. by rewrite H1, H2.
      + rewrite lookup_alter_ne by done. eauto.
  Qed.
  Lemma kp_upd_inst K i f : (forall y, gin i y -> gin i (f y)) -> kp K yes (upd_inst i f).
  Proof.
    intros Hf s [A B C D F G]. split; [|done]. split; try done. cbn. intros i' y. destruct (decide (i = i')) as [<-|].
    - rewrite lookup_alter. destruct (s_insts s !! i) eqn:Hx; [|done]. intros [= <-]. apply Hf. by eapply A.
    - rewrite lookup_alter_ne by done. apply A.
  Qed.
  Lemma kp_sched K t : ok t -> kp K yes (schedule_eval t).
  Proof.
    intros Ht. unfold schedule_eval. eapply kp_bindp; [apply kp_get_ti|]. intros x _. apply kp_bind; [apply kp_get|]. intros s0. apply kp_bind; [|intros _; by apply kp_log].
    intros s [A B C D F G]. split; [|done]. split; try done. cbn. intros w t' [H|[= -> ->]%elem_of_list_singleton]%elem_of_app; [by eapply C|done].
  Qed.
  Lemma kp_focl K i l : kp K yes (find_or_create_link i l).
  Proof.
    unfold find_or_create_link. eapply kp_bindp; [apply kp_get_inst|]. intros x _. destruct (i_links x !! l_id l); [by apply kp_ret|].
    apply kp_bind; [|intros; by apply kp_log]. by apply kp_upd_inst.
  Qed.
  Lemma kp_release K i tk : kp K yes (release_task i tk).
  Proof.
    unfold release_task. eapply kp_bindp; [apply kp_get_inst|]. intros y _. apply kp_bind.
    { apply kp_upd_inst. intros z (H1 & H2 & H3). split; [done|]. split; [|done]. cbn. intros id t [_ ?]%lookup_delete_Some. by eapply H2. }
    intros _. apply kp_bind; [by apply kp_log|]. intros _. apply kp_iterM. intros l. eapply kp_bindp; [apply kp_get_inst|]. intros z _.
    apply kp_bind; [by apply kp_upd_inst|intros; by apply kp_log].
  Qed.
  Lemma kp_new K i tk : (i = 0%nat -> tk ∈ eh_tasks h) -> kp K ok (new_tinst i tk).
  Proof.
    intros Hk. unfold new_tinst. destruct (t_act tk); [|apply kp_panic]. intros s [A B C [D1 D2] F G]. split.
    - split; try done; cbn.
      + intros t x. rewrite lookup_insert_Some. intros [[_ <-]|[_ ?]]; [by intros _|by eapply B].
      + split; [lia|]. intros t Ht. rewrite lookup_insert_ne by lia. apply D2. lia.
      + intros t i' tk' HK. destruct (G _ _ _ HK) as (x & Hx & ?). exists x. split; [|done]. rewrite lookup_insert_ne; [done|]. intros <-. by rewrite D2 in Hx.
    - cbn. intros t [= <-]. by apply Hok.
  Qed.
  Lemma kp_foct K i tk : (i = 0%nat -> tk ∈ eh_tasks h) -> kp K ok (find_or_create_task i tk).
  Proof.
    intros Hk. unfold find_or_create_task. eapply kp_bindp; [apply kp_get_inst|]. intros y (_ & Hy & _). destruct (i_tasks y !! t_id tk) eqn:Ht; [apply kp_ret; by eapply Hy|].
    eapply kp_bindp; [by apply kp_new|]. intros t Hot. apply kp_bind.
    { apply kp_upd_inst. intros z (H1 & H2 & H3). split; [done|]. split; [|done]. cbn. intros id t'. rewrite lookup_insert_Some. intros [[_ <-]|[_ ?]]; [done|by eapply H2]. }
    intros _. apply kp_bind; [by apply kp_log|]. intros _. by apply kp_ret.
  Qed.
  Lemma kp_from K t : kp K yes (from_links t).
  Proof. unfold from_links. eapply kp_bindp; [apply kp_get_ti|]. intros x _. apply kp_bind; [apply kp_iterM; intros; apply kp_focl|]. intros _. by apply kp_ret. Qed.
  Lemma kp_to K t : kp K yes (to_links t).
  Proof. unfold to_links. eapply kp_bindp; [apply kp_get_ti|]. intros x _. apply kp_bind; [apply kp_iterM; intros; apply kp_focl|]. intros _. by apply kp_ret. Qed.
  Lemma kp_to_known (K : known) t i tk : K t i tk -> kp K (fun ls => ls = t_to tk) (to_links t).
  Proof.
    intros HK. unfold to_links. eapply kp_bindp; [by eapply kp_get_known|]. intros x [_ <-]. apply kp_bind; [apply kp_iterM; intros; apply kp_focl|]. intros _. by apply kp_ret.
  Qed.

  Ltac side := first [ done | by intros ? (? & ? & ?); split_and! ].
  Ltac go := repeat (
      lazymatch goal with
      | |- kp _ _ (ret _) => apply kp_ret; exact I
      | |- kp _ _ (panic _) => apply kp_panic
      | |- kp _ _ out_of_fuel => apply kp_fuel
      | |- kp _ _ get => apply kp_get
      | |- kp _ _ (log_ev _) => apply kp_log; exact I
      | |- kp _ _ (get_ti _) => eapply kp_weak; [|apply kp_get_ti]; done
      | |- kp _ _ (get_inst _) => eapply kp_weak; [|apply kp_get_inst]; done
      | |- kp _ _ (find_or_create_link _ _) => apply kp_focl
      | |- kp _ _ (release_task _ _) => apply kp_release
      | |- kp _ _ (from_links _) => apply kp_from
      | |- kp _ _ (to_links _) => apply kp_to
      | |- kp _ _ (schedule_eval _) => apply kp_sched; assumption
      | |- kp _ _ (modify _) => apply kp_modify; intros ?; reflexivity
      | |- kp _ _ (upd_ti _ _) => apply kp_upd_ti; intros ?; reflexivity
      | |- kp _ _ (upd_inst _ _) => apply kp_upd_inst; side
      | |- kp _ _ (iterM _ _) => apply kp_iterM; intros ?
      | |- kp _ _ (enter_list _ _ _ _) => assumption
      | |- kp _ _ (bind (get_ti _) _) => eapply kp_bindp; [apply kp_get_ti|intros ? ?]
      | |- kp _ _ (bind (get_inst _) _) => eapply kp_bindp; [apply kp_get_inst|intros ? ?]
      | |- kp _ _ (bind _ _) => apply kp_bind; [|intros ?]
      | |- kp _ _ (catch _ _) => apply kp_catch; [|intros ?]
      | |- kp _ _ (finally _ _) => apply kp_finally
      | |- kp _ _ (let _ := _ in _) => cbv zeta
      | |- kp _ _ (match ?x with _ => _ end) => destruct x
      | |- kp _ _ (ext _ _) => unfold ext
      | |- kp _ _ tick => unfold tick
      | |- kp _ _ (set_wd _ _ _) => unfold set_wd
      | |- kp _ _ (set_attrs _ _ _) => unfold set_attrs
      | |- kp _ _ (set_value _ _ _ _) => unfold set_value
      | |- kp _ _ (set_values _ _ _) => unfold set_values
      | |- kp _ _ (post_flow_event _ _) => unfold post_flow_event
      | |- kp _ _ (get_return_data _) => unfold get_return_data
      | |- kp _ _ (set_flow_status _ _ _) => unfold set_flow_status
      | |- kp _ _ (set_task_status _ _) => unfold set_task_status
      | |- kp _ _ (set_link_status _ _ _ _) => unfold set_link_status
      | |- kp _ _ (track_task _) => unfold track_task
      | |- kp _ _ (need_cov _ _ _) => unfold need_cov
      | |- kp _ _ (record_state _) => unfold record_state
      | |- kp _ _ (append_error_data _ _ _) => unfold append_error_data
      | |- kp _ _ (set_task_error _ _ _) => unfold set_task_error
      | |- kp _ _ (add_activity_coverage _ _) => unfold add_activity_coverage
      | |- kp _ _ (apply_settings _ _) => unfold apply_settings
      | |- kp _ _ (eval_link _ _ _) => unfold eval_link
      | |- kp _ _ (flow_task_done _) => unfold flow_task_done
      | |- kp _ _ (parent_info _ _) => unfold parent_info
      | |- kp _ _ (host_of _) => unfold host_of
      | |- kp _ _ (reply _ _ _) => unfold reply
      | |- kp _ _ (return_ _ _ _) => unfold return_
      | |- kp _ _ (icpt_id _) => unfold icpt_id
      | |- kp _ _ (apply_input_mapper _ _) => unfold apply_input_mapper
      | |- kp _ _ (apply_input_icpt _ _) => unfold apply_input_icpt
      | |- kp _ _ (set_exec_status _ _ _) => unfold set_exec_status
      | |- kp _ _ (apply_output_icpt _ _) => unfold apply_output_icpt
      | |- kp _ _ (apply_output_mapper _ _) => unfold apply_output_mapper
      | |- kp _ _ (handle_accumulation _ _) => unfold handle_accumulation
      | |- kp _ _ (guard_err _ _) => unfold guard_err
      | |- kp _ _ (recover_eval _ _) => unfold recover_eval
      | |- kp _ _ (has_output_icpt _ _) => unfold has_output_icpt
      | |- kp _ _ (retry_value _ _ _) => unfold retry_value
      | |- kp _ _ (retry_data _ _ _) => unfold retry_data
      | |- kp _ _ (retry_bound _) => unfold retry_bound
      | |- kp _ _ (iterate_on _ _ _) => unfold iterate_on
      | |- kp _ _ (init_index _) => unfold init_index
      | |- kp _ _ (update_index _) => unfold update_index
      | |- kp _ _ (check_cond _ _) => unfold check_cond
      end ).

  (** *** Leaving a task *)
  Definition pls (i : nat) (ls : list link) : Prop := i = 0%nat -> forall l, l ∈ ls -> l_eh l = true.
  Definition pes (i : nat) (es : list entry) : Prop := i = 0%nat -> forall e, e ∈ es -> e.1 ∈ eh_tasks h.
  Lemma kp_entries K i es : pls i es.*1 -> kp K (pes i) (entries_of i es).
  Proof.
    intros Hl. unfold entries_of. eapply kp_bindp; [apply kp_get_inst|]. intros y (Hy & _). destruct (resolve_entries (i_def y) es) as [r|] eqn:Hr; [|apply kp_panic].
    apply kp_ret. intros Hi e He. destruct (resolve_targets _ _ _ Hr e He) as (l & c & Hin & Ht). unfold link_target in Ht.
    rewrite (Hl Hi l) in Ht by (apply elem_of_list_fmap; by exists (l, c)). unfold get_eh_task in Ht. rewrite (proj2 (Hy Hi)) in Ht. by eapply StepsEngine.find_task_in.
  Qed.
  Lemma pls_to t i tk : ok t -> (ok t -> i = 0%nat -> tk ∈ eh_tasks h) -> pls i (t_to tk).
  Proof. intros Ht H Hi l Hl. eapply HL; [|exact Hl]. by apply H. Qed.
  Lemma kp_done_link K t i l a : kp K (fun r => match r with inr a' => (da_es a').*1 = (da_es a).*1 ++ [l] | inl _ => True end) (done_link E t i l a).
  Proof.
    unfold done_link. apply kp_bind; [go|]. intros _. destruct (l_type l).
    all: try (apply kp_ret; cbn; by rewrite fmap_app).
    all: try (apply kp_bind; [go|]; intros _; apply kp_ret; cbn; by rewrite fmap_app).
    apply kp_bind; [go|]. intros [e|[]]; [by apply kp_ret| |apply kp_ret; cbn; by rewrite fmap_app]. apply kp_bind; [go|]. intros _. apply kp_ret; cbn; by rewrite fmap_app.
  Qed.
  Lemma kp_done_links K t i ls a : kp K (fun r => match r with inr a' => (da_es a').*1 = (da_es a).*1 ++ ls | inl _ => True end) (done_links E t i ls a).
  Proof.
    revert a. induction ls as [|l ls IH]; intros a; cbn [done_links]; [apply kp_ret; by rewrite app_nil_r|]. eapply kp_bindp; [apply kp_done_link|].
    intros [e|a'] Hr; [by apply kp_ret|]. eapply kp_weak; [|apply IH]. intros [|a'']; [done|]. intros ->. rewrite Hr. by rewrite <- app_assoc.
  Qed.
  Lemma pls_sort i (es : list (link * Z)) : pls i es.*1 -> pls i (sort_entries es).*1.
  Proof. intros H Hi l (p & -> & Hp)%elem_of_list_fmap. rewrite sort_entries_in in Hp. apply H; [done|]. apply elem_of_list_fmap. by exists p. Qed.
  Lemma kp_beh_done (K : known) t i tk : K t i tk -> pls i (t_to tk) -> kp K (fun r => match r with inr p => pes i p.2 | inl _ => True end) (beh_done E t).
  Proof.
    intros HK Hp. unfold beh_done. eapply kp_bindp; [by eapply kp_to_known|]. intros ls ->. apply kp_bind; [go|]. intros _. eapply kp_bindp; [by eapply kp_get_known|].
    intros x [-> _]. cbv zeta. destruct (t_to tk) as [|l ls] eqn:Hls; [apply kp_ret; by intros _ e ?%elem_of_nil|]. eapply kp_bindp; [apply kp_done_links|].
    intros [e|a] Ha; [by apply kp_ret|]. cbn [da_es fmap list_fmap app] in Ha.
    eapply (kp_bindp K (fun es => es.*1 = l :: ls)).
    - destruct (da_oth a) as [lo|]; [|by apply kp_ret]. destruct (_ && _); [|by apply kp_ret]. apply kp_bind; [go|]. intros _. apply kp_ret.
      rewrite <- Ha. rewrite <- list_fmap_compose. apply list_fmap_ext. intros ? [l1 c1] _. cbn. by destruct (_ =? _)%nat.
    - intros es He. eapply kp_bindp; [apply kp_entries, pls_sort; by rewrite He|]. intros es' He'. by apply kp_ret.
  Qed.
  Lemma kp_beh_skip (K : known) t i tk : K t i tk -> pls i (t_to tk) -> kp K (fun r => pes i r.1.2) (beh_skip E t).
  Proof.
    intros HK Hp. unfold beh_skip. cbv zeta. eapply kp_bindp; [by eapply kp_to_known|]. intros ls ->. apply kp_bind; [go|]. intros _. eapply kp_bindp; [by eapply kp_get_known|].
    intros x [-> _]. destruct (t_to tk) as [|l ls] eqn:Hls; [apply kp_ret; by intros _ e ?%elem_of_nil|]. apply kp_bind; [go|]. intros _.
    eapply kp_bindp; [apply kp_entries|intros; by apply kp_ret]. rewrite <- list_fmap_compose. unfold compose. cbn [fst]. by rewrite list_fmap_id.
  Qed.
  Lemma kp_beh_error (K : known) t i tk : K t i tk -> pls i (t_to tk) -> kp K (fun r => pes i r.2) (beh_error E t).
  Proof.
    intros HK Hp. unfold beh_error. eapply kp_bindp; [by eapply kp_to_known|]. intros ls ->. eapply kp_bindp; [by eapply kp_get_known|].
    intros x [-> _]. destruct (existsb _ _); [|apply kp_ret; by intros _ e ?%elem_of_nil]. apply kp_bind; [go|]. intros _.
    eapply kp_bindp; [apply kp_entries, pls_sort|intros; by apply kp_ret]. rewrite <- list_fmap_compose. unfold compose. cbn [fst]. by rewrite list_fmap_id.
  Qed.

  (** *** Entering tasks *)
  Lemma kp_enter K t : kp K yes (enter t).
  Proof. unfold enter. go. Qed.
  Lemma kp_enter_list K skip i es : (forall K t, ok t -> kp K yes (skip t)) -> pes i es -> kp K yes (enter_list E skip i es).
  Proof.
    intros Hs. induction es as [|[tk z] es IH]; intros Hp; cbn [enter_list]; [go|]. eapply kp_bindp; [apply kp_foct; intros Hi; apply (Hp Hi (tk, z)); left|]. intros t Ht.
    assert (Hp' : pes i es) by (intros Hi e ?; apply Hp; [done|by right]). specialize (IH Hp').
    eapply kp_bindp; [apply kp_get_ti|]. intros x _. destruct (_ && _); [done|]. apply kp_bind; [apply kp_enter|]. intros []; [done| |apply kp_bind; auto].
    apply kp_bind; [go|]. intros [e|]; go.
  Qed.
  Lemma kp_lock {A} K (P : A -> Prop) m : kp K P m -> kp K P (with_lock E m).
  Proof.
    intros Hm. unfold with_lock. destruct (e_conc E); [|done]. apply kp_bind; [go|]. intros s. destruct (s_lock s); [intros s' Hs'; by split|].
    apply kp_bind; [go|]. intros _. apply kp_finally; [done|go].
  Qed.
  Lemma kp_complete K i : kp K yes (complete_flow E i).
  Proof.
    unfold complete_flow. apply kp_bind; [go|]. intros _. destruct (i =? 0)%nat; [go|]. eapply kp_bindp; [apply kp_get_inst|]. intros y (_ & _ & Hh).
    apply kp_bind; [|intros; go]. destruct (i_host y) as [ht|]; [|go]. specialize (Hh ht eq_refl). go.
  Qed.
  Lemma kp_global_ent K ent i e : (forall es, pes i es -> kp K yes (ent i es)) -> kp K yes (handle_global_error E ent i e).
  Proof.
    intros He. unfold handle_global_error. eapply kp_bindp; [apply kp_get_inst|]. intros y (Hy & _). destruct (i_handling y); [go|].
    assert (i <> 0%nat) as Hi by (intros ->; by destruct (Hy eq_refl)). apply kp_bind; [apply kp_upd_inst; by intros z (? & ? & ?)|]. intros _.
    destruct (d_eh (i_def y)) as [h'|].
    - apply kp_bind. { unfold clear_tasks. apply kp_bind; [go|]. intros _. apply kp_bind; [|intros; go]. apply kp_upd_inst. intros z (? & ? & ?). split_and!; [done| |done]. cbn. intros id t H'. by rewrite lookup_empty in H'. }
      intros _. apply kp_bind; [apply He; by intros ?|intros; go].
    - apply kp_bind; [go|]. intros _. destruct (i =? 0)%nat; [go|]. apply kp_bind; [go|]. intros _. unfold host_of.
      eapply (kp_bindp K (fun o => forall ht, o = Some ht -> ok ht)). { eapply kp_bindp; [apply kp_get_inst|]. intros z (_ & _ & Hz). by apply kp_ret. }
      intros [ht|] Ho; [|go]. specialize (Ho ht eq_refl). go.
  Qed.
  Lemma kp_htd K ent t : (forall K i es, pes i es -> kp K yes (ent i es)) -> ok t -> kp K yes (handle_task_done E ent t).
  Proof.
    intros He Ht. unfold handle_task_done. apply kp_know. intros x Hx. assert (add K t x t (ti_inst x) (ti_task x)) as HK by (by right). revert HK. generalize (add K t x). clear K. intros K HK.
    assert (pls (ti_inst x) (t_to (ti_task x))) as Hp by (by eapply pls_to). cbv zeta.
    eapply (kp_bindp K (fun r => match r with inr p => pes (ti_inst x) p.2 | inl _ => True end)).
    - destruct (bool_decide _).
      + eapply kp_bindp; [by eapply kp_beh_skip|]. intros r Hr. by apply kp_ret.
      + eapply kp_bindp; [by eapply kp_beh_done|]. intros r Hr. apply kp_bind; [go|]. intros _. by apply kp_ret.
    - intros [e|[nt es]] Hr.
      + eapply kp_bindp; [apply kp_get_inst|]. intros m _. cbv zeta. apply kp_bind; [go|]. intros _. apply kp_global_ent. auto.
      + apply kp_bind; [go|]. intros fd. eapply kp_bindp; [apply kp_get_inst|]. intros y _. apply kp_bind; [|intros; go].
        destruct (_ || _); [apply kp_complete|]. apply kp_bind; [by apply He|intros; go].
  Qed.
  Lemma kp_enter_tasks n : forall K i es, pes i es -> kp K yes (enter_tasks E n i es).
  Proof.
    induction n as [|n IH]; intros K i es Hp; cbn [enter_tasks]; apply kp_lock, kp_enter_list; try done; intros K' t Ht; first [apply kp_fuel|by apply kp_htd].
  Qed.
  Lemma kp_enter_top K i es : pes i es -> kp K yes (enter_top E i es).
  Proof. intros Hp. unfold enter_top. eapply kp_bindp; [apply kp_get_inst|]. intros y _. by apply kp_enter_tasks. Qed.
  Lemma kp_global K i e : kp K yes (handle_global_error E (enter_top E) i e).
  Proof. apply kp_global_ent. intros. by apply kp_enter_top. Qed.
  Lemma kp_handle_error (K : known) t i tk e : ok t -> K t i tk -> pls i (t_to tk) -> kp K yes (handle_task_error E t e).
  Proof.
    intros Ht HK Hp. unfold handle_task_error. apply kp_bind; [go|]. intros _. apply kp_bind; [go|]. intros _. eapply kp_bindp; [by eapply kp_beh_error|]. intros [b es] Hr.
    eapply kp_bindp; [by eapply kp_get_known|]. intros x [-> ->]. cbv zeta. cbn [fst snd] in *. destruct b.
    - apply kp_bind; [go|]. intros _. apply kp_bind; [|intros; go]. destruct es; [go|]. apply kp_bind; [by apply kp_enter_top|intros; go].
    - eapply kp_bindp; [apply kp_get_inst|]. intros y (_ & _ & Hh). destruct (i_handling y).
      + apply kp_bind; [go|]. intros _. destruct (i =? 0)%nat; [go|]. apply kp_bind; [go|]. intros _. destruct (i_host y) as [ht|]; [|go]. specialize (Hh ht eq_refl). go.
      + apply kp_bind; [go|]. intros _. apply kp_global.
  Qed.
  Lemma kp_start_instance K i m : i <> 0%nat -> kp K yes (start_instance E i m).
  Proof.
    intros Hi. unfold start_instance. eapply kp_bindp; [apply kp_get_inst|]. intros y _. apply kp_bind; [go|]. intros p. apply kp_bind; [go|]. intros ?.
    apply kp_bind; [go|]. intros ?. apply kp_bind; [go|]. intros ?. apply kp_bind; [go|]. intros ?. apply kp_bind; [|intros; go].
    apply kp_enter_top. by intros ?.
  Qed.
  Lemma kp_new_embedded K t uri d : ok t -> kp K (fun i => i <> 0%nat) (new_embedded t uri d).
  Proof.
    intros Ht. unfold new_embedded. apply kp_bind; [go|]. intros s0. eapply kp_bindp; [apply kp_get_ti|]. intros x _. cbv zeta. apply kp_bind.
    - intros s [A B C D F G]. split; [|done]. split; try done. cbn. intros i y. rewrite lookup_insert_Some. intros [[<- <-]|[_ ?]]; [|by eapply A].
      split; [done|]. split; [|by intros t' [= <-]]. cbn. intros id t'. by rewrite lookup_empty.
    - intros _. apply kp_bind; [go|]. intros _. by apply kp_ret.
  Qed.
  Lemma kp_start_subflow K t uri ins : ok t -> kp K yes (start_subflow E t uri ins).
  Proof.
    intros Ht. unfold start_subflow. apply kp_bind; [go|]. intros n. destruct (e_def E n uri) eqn:Hd; [|go..]. eapply kp_bindp; [by apply kp_new_embedded|]. intros i Hi.
    apply kp_bind; [by apply kp_start_instance|]. intros _. go.
  Qed.
  Lemma kp_run_act K t a : ok t -> kp K yes (run_act E t a).
  Proof.
    intros Ht. induction a as [r|n v k IH|m k IH|n v k IH|d e k IH|d e k IH|uri ins k1 IH1 k2 IH2]; cbn [run_act]; (eapply kp_bindp; [apply kp_get_ti|]; intros x _).
    1: go. 1-5: apply kp_bind; [go|intros; done].
    apply kp_bind; [by apply kp_start_subflow|]. intros []; done.
  Qed.
  Lemma kp_asserts K t id b k l : kp K yes (run_asserts E t id b k l).
  Proof. revert k. induction l as [|a l IH]; intros k; cbn [run_asserts]; [go|]. destruct (negb b), (as_empty a), (as_type a =? 1)%Z; go; apply IH. Qed.
  Lemma kp_apply_asserts K t ty : kp K yes (apply_asserts E t ty).
  Proof. unfold apply_asserts. go. apply kp_asserts. Qed.

  (** *** Evaluating *)
  Lemma kp_call K t : ok t -> kp K yes (call_activity E t).
  Proof.
    intros Ht. unfold call_activity. eapply kp_bindp; [apply kp_get_ti|]. intros x Hx. cbv zeta. apply kp_bind.
    { apply kp_log. intros Hi. apply elem_of_list_fmap. exists (ti_task x). split; [done|]. by apply Hx. }
    intros _. apply kp_bind; [go|]. intros a.
    apply kp_bind; [apply kp_catch; [by apply kp_run_act|intros; go]|]. intros [| |e0|msg]; [go|go| |go]. cbv zeta.
    apply kp_bind; [go|]. intros _. apply kp_bind; [go|]. intros _. apply kp_bind; [go|]. intros y. apply kp_bind; [go|]. intros _.
    apply kp_bind; [go|]. intros _. apply kp_bind; [|intros; go]. apply kp_catch; [|intros; go]. apply kp_bind; [apply kp_apply_asserts|intros; go].
  Qed.
  Lemma kp_finish K t : kp K yes (finish_activity E t).
  Proof.
    unfold finish_activity. apply kp_bind; [go|]. intros x. unfold guard_err. apply kp_bind; [go|]. intros []; [go|].
    apply kp_bind; [go|]. intros []; [go|]. apply kp_bind; [go|]. intros []; [go|]. apply kp_bind; [apply kp_apply_asserts|]. intros []; go.
  Qed.
  Lemma kp_eval_activity K t : ok t -> kp K yes (eval_activity E t).
  Proof.
    intros Ht. unfold eval_activity, recover_eval. apply kp_catch; [|intros; go]. apply kp_bind; [go|]. intros x. destruct (t_act (ti_task x)) as [ac|]; [|go].
    unfold guard_err. apply kp_bind; [go|]. intros []; [go|]. apply kp_bind; [go|]. intros []; [|apply kp_finish].
    apply kp_bind; [go|]. intros []; [go|]. apply kp_bind; [go|]. intros [].
    - apply kp_bind; [go|]. intros _. apply kp_finish.
    - apply kp_bind; [by apply kp_call|]. intros [|[]]; [go|apply kp_finish|go].
  Qed.
  Lemma kp_post K t : ok t -> kp K yes (post_eval_activity E t).
  Proof.
    intros Ht. unfold post_eval_activity, recover_eval. apply kp_catch; [|intros; go]. apply kp_bind; [go|]. intros x. cbv zeta. apply kp_bind; [go|]. intros p.
    apply kp_bind.
    - destruct p; [|go]. apply kp_bind; [go|]. intros _. apply kp_bind; [by apply kp_run_act|]. intros []; go.
    - intros [e|b]; [go|]. apply kp_bind; [go|]. intros y. destruct (ti_rerr y); [go|]. destruct b; [|go]. unfold guard_err.
      apply kp_bind; [go|]. intros []; [go|]. apply kp_bind; [go|]. intros []; [go|]. apply kp_bind; [apply kp_apply_asserts|]. intros []; go.
  Qed.
  Lemma kp_retry_loop K n t r : ok t -> kp K yes (retry_loop E n t r).
  Proof.
    intros Ht. revert r. induction n as [|n IH]; intros r; cbn [retry_loop]; (apply kp_bind; [go|]); intros x; destruct r as [e|]; [|go| |go];
      destruct (t_retry (ti_task x)) as [rc|]; [|go| |go]; (destruct (retriable e); [|go]); (apply kp_bind; [go|]); intros [e'|[z iv]]; [go| |go|];
      (destruct (0 <? z)%Z; [|go]); [go|]. apply kp_bind; [go|]. intros _. apply kp_bind; [by apply kp_eval_activity|]. apply IH.
  Qed.
  Lemma kp_eval_retry K t : ok t -> kp K yes (eval_retry E t).
  Proof.
    intros Ht. unfold eval_retry. apply kp_bind; [by apply kp_eval_activity|]. intros r. apply kp_bind; [go|]. intros x. destruct r as [e|]; [|go].
    destruct (t_retry (ti_task x)) as [rc|]; [|go]. destruct (retriable e); [|go]. apply kp_bind; [go|]. intros []; [go|].
    apply kp_bind; [go|]. intros n. by apply kp_retry_loop.
  Qed.
  Lemma kp_iter_step K t it : ok t -> kp K yes (iter_step E t it).
  Proof.
    intros Ht. unfold iter_step. destruct (iter_next it) as [it' o]. apply kp_bind; [go|]. intros _. destruct o as [[[k v] ix]|]; [|go].
    apply kp_bind; [go|]. intros _. apply kp_bind; [by apply kp_eval_retry|]. intros [|[]]; go.
  Qed.
  Lemma kp_beh_eval K ty t : ok t -> kp K yes (beh_eval E ty t).
  Proof.
    intros Ht. destruct ty; cbn [beh_eval].
    - unfold basic_eval. apply kp_bind; [go|]. intros x. destruct (bool_decide _); [go|]. apply kp_bind; [by apply kp_eval_retry|intros; go].
    - unfold iter_eval. apply kp_bind; [go|]. intros x. destruct (bool_decide _); [go|]. destruct (ti_wd x !! "_iterator") as [[]|]; try (by go).
      + by apply kp_iter_step.
      + destruct (t_loop (ti_task x)); [|go]. apply kp_bind; [go|]. intros [|v]; [go|]. destruct v; try (by go); (destruct (make_iter E _); [|go]);
        (apply kp_bind; [go|]; intros _; apply kp_bind; [go|]; intros _; by apply kp_iter_step).
    - unfold dw_eval. apply kp_bind; [go|]. intros x. destruct (bool_decide _); [go|]. apply kp_bind; [go|]. intros _.
      apply kp_bind; [by apply kp_eval_retry|]. intros [|[]]; go.
  Qed.
  Lemma kp_beh_post K ty t : ok t -> kp K yes (beh_post E ty t).
  Proof.
    intros Ht. destruct ty; cbn [beh_post].
    - unfold basic_post. apply kp_bind; [by apply kp_post|]. intros r. apply kp_bind; [go|]. intros x. destruct r as [e|]; [|go].
      destruct e; try (by go). destruct (t_retry (ti_task x)); [|go]. apply kp_bind; [go|]. intros [|[z iv]]; [go|].
      destruct (0 <? z)%Z; [|go]. apply kp_bind; [go|]. intros _. apply kp_bind; [by apply kp_eval_retry|intros; go].
    - unfold iter_post. apply kp_bind; [by apply kp_post|]. intros []; go.
    - unfold dw_post. apply kp_bind; [go|]. intros _. apply kp_bind; [by apply kp_post|]. intros []; go.
  Qed.
  Lemma kp_recover K t m : ok t -> kp K yes (exec_recover E t m).
  Proof.
    intros Ht. unfold exec_recover. eapply kp_bindp; [apply kp_get_ti|]. intros x _. eapply kp_bindp; [apply kp_get_inst|]. intros y _. cbv zeta. destruct (i_handling y); [go|].
    apply kp_bind; [go|]. intros _. apply kp_global.
  Qed.
  Lemma kp_exec_body K t : ok t -> kp K yes (exec_body E t).
  Proof.
    intros Ht. unfold exec_body. apply kp_know. intros x Hx. assert (add K t x t (ti_inst x) (ti_task x)) as HK by (by right). revert HK. generalize (add K t x). clear K. intros K HK.
    cbv zeta. destruct (bool_decide _); [go|]. apply kp_bind; [destruct (bool_decide _); [by apply kp_beh_post|by apply kp_beh_eval]|].
    intros [e|[]]; try (by go).
    - eapply kp_handle_error; [done|done|]. by eapply pls_to.
    - apply kp_htd; [|done]. intros. by apply kp_enter_top.
    - apply kp_htd; [|done]. intros. by apply kp_enter_top.
  Qed.
  Lemma good_step s : good none s -> good none (do_step E s).2.
  Proof.
    intros Hs. unfold do_step. revert s Hs. cut (kp none yes (do_step E)); [intros H s Hs; by apply H|]. unfold do_step.
    apply kp_bind; [go|]. intros _. eapply kp_bindp; [apply kp_get_inst|]. intros y _. destruct (bool_decide _); [|go].
    intros s Hs. cbn [bind get]. change ((bind get ?k) s) with (k s s). cbv beta.
    destruct (s_queue s) as [|[w t] q] eqn:Hq; [by split|]. assert (ok t) as Ht by (eapply (g_queue _ _ Hs); rewrite Hq; left).
    assert (forall w' t', (w', t') ∈ q -> ok t') as Hr by (intros w' t' H; eapply (g_queue _ _ Hs); rewrite Hq; by right).
    revert s Hs Hq. intros s Hs _. revert s Hs. match goal with |- forall s, good none s -> good none (?m s).2 /\ _ => change (kp none yes m) end.
    eapply kp_bindp; [apply kp_get_ti|]. intros x _. apply kp_bind.
    { intros s' [A B C D F G]. split; [|done]. by split. }
    intros _. apply kp_bind; [go|]. intros _. apply kp_bind; [|intros; go]. unfold exec_task. apply kp_catch; [by apply kp_exec_body|]. intros e. by apply kp_recover.
  Qed.
  Lemma good_steps n s : good none s -> good none (Nat.iter n (fun s => (do_step E s).2) s).
  Proof. intros H. induction n as [|n IH]; [done|]. cbn. by apply good_step. Qed.
End Only.

Lemma handler_only E d uri s y h n : running E d uri s -> built d -> d_eh d = Some h -> s_insts s !! 0%nat = Some y -> i_handling y = true ->
  (forall w t x, (w, t) ∈ s_queue s -> s_tis s !! t = Some x -> ti_inst x = 0%nat -> ti_task x ∈ eh_tasks h) ->
  (forall id t x, i_tasks y !! id = Some t -> s_tis s !! t = Some x -> ti_task x ∈ eh_tasks h) ->
  (forall i z t x, s_insts s !! i = Some z -> i_host z = Some t -> s_tis s !! t = Some x -> ti_inst x = 0%nat -> ti_task x ∈ eh_tasks h) ->
  exists l, evaluations (after E n s) = evaluations s ++ l /\ forall id, (0%nat, id) ∈ l -> id ∈ t_id <$> eh_tasks h.
Proof.
  intros R B Hh Hy Hy1 Hq Ht Ho. destruct (running_reach _ _ _ _ R) as [c Rc]. pose proof (reach_fresh _ _ _ _ _ Rc) as (F1 & F2 & F3 & _).
  destruct (inv_main _ _ _ _ _ Rc) as (y0 & Hy0 & Hd & _). rewrite Hy in Hy0. injection Hy0 as <-.
  set (ok := fun t => forall x, s_tis s !! t = Some x -> ti_inst x = 0%nat -> ti_task x ∈ eh_tasks h).
  assert (Hok : forall t, (s_nti s <= t)%nat -> ok t) by (intros t Hle x Hx; by rewrite F1 in Hx).
  assert (HL : forall tk l, tk ∈ eh_tasks h -> l ∈ t_to tk -> l_eh l = true).
  { intros tk l Hk Hl. pose proof (proj2 (built_graph d B) h Hh) as S. rewrite (so_to _ _ _ _ S tk Hk) in Hl. apply elem_of_list_In, filter_In in Hl as [Hl _].
    eapply so_leh; [exact S|]. by apply elem_of_list_In. }
  assert (good h ok (s_nti s) (s_log s) none s) as G.
  { split; [| | |done|by exists []|done].
    - intros i z Hz. split; [intros ->; rewrite Hy in Hz; injection Hz as <-; split; [done|by rewrite Hd]|]. split.
      + intros id t Hid x Hx Hx0. destruct (F3 i id t) as (tk & (x' & Hx' & Hi & _) & _); [by exists z|]. rewrite Hx in Hx'. injection Hx' as <-.
        assert (i = 0%nat) as -> by congruence. rewrite Hy in Hz. injection Hz as <-. by eapply Ht.
      + intros t Hht x Hx. by eapply Ho.
    - intros t x Hx Hot. by apply Hot.
    - intros w t Hin x Hx. by eapply Hq. }
  assert (good h ok (s_nti s) (s_log s) none (after E n s)) as G'.
  { cut (forall s0, good h ok (s_nti s) (s_log s) none s0 -> good h ok (s_nti s) (s_log s) none (after E n s0)); [by intros H; apply H|].
    clear G. induction n as [|n IH]; intros s0 G0; [done|]. cbn [after]. apply IH. by apply good_step. }
  destruct (g_log _ _ _ _ _ _ G') as (l & Hl & Fl). unfold evaluations, trace. rewrite Hl, rev_app_distr, omap_app. eexists. split; [done|].
  intros id Hin. apply elem_of_list_omap in Hin as (e & He & Hid). apply elem_of_list_In, in_rev, elem_of_list_In in He. rewrite Forall_forall in Fl. specialize (Fl e He).
  destruct e; try done. injection Hid as -> ->. by apply Fl.
Qed.
