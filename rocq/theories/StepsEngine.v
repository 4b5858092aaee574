(** Every engine function is a sequence of atomic steps (proofs; no Go counterpart). *)
From Verif Require Export StepsProof.
Local Open Scope Z_scope.

Notation T := (fun _ _ => True).

(** The executing task instance belongs to flow instance [i]. *)
Definition own (s : st) (c : option nat) (i : nat) : Prop :=
  exists t tk, c = Some t /\ ti_is s t i tk.
(** Flow instance [i] was started by [c] and has not begun. *)
Definition nstarted (s : st) (c : option nat) (i : nat) : Prop :=
  exists y, s_insts s !! i = Some y /\ i_status y = FNotStarted /\ i_host y = c.

Lemma own_grows s s' c i : grows s s' -> own s c i -> own s' c i.
Proof. intros G (t & tk & -> & H). exists t, tk. eauto using ti_is_grows. Qed.
Lemma own_act s c i : own s c i -> act_inst s c i.
Proof. intros H. by left. Qed.
Lemma nstarted_inst s c i : nstarted s c i -> exists d, inst_is s i d c.
Proof. intros (y & Hy & _ & <-). exists (i_def y), y. eauto. Qed.
Lemma ti_is_intro s t x : s_tis s !! t = Some x -> ti_is s t (ti_inst x) (ti_task x).
Proof. exists x. eauto. Qed.
Lemma inst_is_intro s i y : s_insts s !! i = Some y -> inst_is s i (i_def y) (i_host y).
Proof. exists y. eauto. Qed.
Lemma ti_is_fun s t x i tk : ti_is s t i tk -> s_tis s !! t = Some x -> ti_inst x = i /\ ti_task x = tk.
Proof. intros (x' & H & <- & <-) H'. rewrite H in H'. injection H' as ->. done. Qed.
Lemma inst_is_fun s i y d h : inst_is s i d h -> s_insts s !! i = Some y -> i_def y = d /\ i_host y = h.
Proof. intros (x' & H & <- & <-) H'. rewrite H in H'. injection H' as ->. done. Qed.

(** Carry the lasting facts about [s] over to a later state. *)
Ltac fwd G :=
  match type of G with
  | grows ?s ?s' =>
      repeat match goal with
      | H : act_inst s _ _ |- _ => apply (act_inst_grows _ _ _ _ G) in H
      | H : own s _ _ |- _ => apply (own_grows _ _ _ _ G) in H
      | H : ti_is s _ _ _ |- _ => apply (ti_is_grows _ _ _ _ _ G) in H
      | H : inst_is s _ _ _ |- _ => apply (inst_is_grows _ _ _ _ _ G) in H
      | H : logged s _ |- _ => apply (logged_grows _ _ _ G) in H
      | H : finished s _ _ |- _ => apply (finished_grows _ _ _ _ G) in H
      | H : rdy s _ |- _ => apply (rdy_grows _ _ _ G) in H
      | H : rdyT s _ |- _ => apply (rdyT_grows _ _ _ G) in H
      | H : closing s _ _ _ _ |- _ => apply (closing_grows _ _ _ _ _ _ G) in H
      | H : readied s _ _ |- _ => apply (readied_grows _ _ _ _ G) in H
      | H : s_tis s !! _ = Some _ |- _ => apply ti_is_intro in H; apply (ti_is_grows _ _ _ _ _ G) in H
      | H : s_insts s !! _ = Some _ |- _ => apply inst_is_intro in H; apply (inst_is_grows _ _ _ _ _ G) in H
      end
  end.

Section Engine.
  Context (E : env) (c : option nat).
  Implicit Types s : st.
  Notation wp := (wp E c).

  Lemma wp_T {A} (m : M A) s (Q : A -> st -> Prop) : wp m s Q -> wp m s T.
  Proof. intros H. eapply wp_weaken; [done|]. done. Qed.

  Lemma wp_fresh {A} (m : M A) s (Q : A -> st -> Prop) : (fresh s -> wp m s Q) -> wp m s Q.
  Proof. intros H F. by apply H. Qed.

  (** Sequencing with a first part that only needs to be atomic steps. *)
  Lemma wp_seq {A B} (m : M A) (k : A -> M B) s (Q : B -> st -> Prop) :
    wp m s T -> (forall a s', grows s s' -> wp (k a) s' Q) -> wp (bind m k) s Q.
  Proof. intros H1 H2. eapply wp_bind; [done|]. eauto. Qed.
  Lemma wp_seq' {A B} (m : M A) (k : A -> M B) s (R : A -> st -> Prop) (Q : B -> st -> Prop) :
    wp m s R -> (forall a s', grows s s' -> R a s' -> wp (k a) s' Q) -> wp (bind m k) s Q.
  Proof. intros H1 H2. eapply wp_bind; [done|]. eauto. Qed.
  Lemma wp_bget {B} (k : st -> M B) s (Q : B -> st -> Prop) : wp (k s) s Q -> wp (bind get k) s Q.
  Proof. done. Qed.
  Lemma wp_bret {A B} (a : A) (k : A -> M B) s (Q : B -> st -> Prop) :
    wp (k a) s Q -> wp (bind (ret a) k) s Q.
  Proof. done. Qed.
  Lemma wp_bview {B} t (k : view -> M B) s (Q : B -> st -> Prop) :
    wp (k (view_of s t)) s Q -> wp (bind (s <- get; ret (view_of s t)) k) s Q.
  Proof. done. Qed.
  Lemma wp_bti {B} t (k : tinst -> M B) s (Q : B -> st -> Prop) :
    (forall x, s_tis s !! t = Some x -> wp (k x) s Q) -> wp (bind (get_ti t) k) s Q.
  Proof.
    intros H. unfold get_ti. intros F. unfold bind, get. simpl.
    destruct (s_tis s !! t) eqn:Et; simpl; [by apply H|]. split; [constructor|done].
  Qed.
  Lemma wp_binst {B} i (k : inst -> M B) s (Q : B -> st -> Prop) :
    (forall y, s_insts s !! i = Some y -> wp (k y) s Q) -> wp (bind (get_inst i) k) s Q.
  Proof.
    intros H. unfold get_inst. intros F. unfold bind, get. simpl.
    destruct (s_insts s !! i) eqn:Et; simpl; [by apply H|]. split; [constructor|done].
  Qed.

  Lemma wp_log e s : note_ev e -> wp (log_ev e) s T.
  Proof. intros. apply wp_step; [|done]. intros. by apply S_note. Qed.
  Lemma wp_upd_ti t f s : c = Some t -> ti_data f -> wp (upd_ti t f) s T.
  Proof. intros. apply wp_step; [|done]. intros. apply S_tdata; auto. Qed.
  Lemma wp_upd_inst i f s : inst_data f -> wp (upd_inst i f) s T.
  Proof. intros. apply wp_step; [|done]. intros. by apply S_idata. Qed.
  Lemma wp_tick s : wp tick s T.
  Proof.
    eapply wp_exact; [reflexivity| |done]. intros. apply S_tick.
  Qed.
  Lemma wp_ext {A} t (f : nat -> view -> A) s : wp (ext t f) s T.
  Proof. apply wp_seq; [apply wp_tick|]. intros. apply wp_bget. by apply wp_ret. Qed.
  Lemma wp_ext_of {A} t (f : nat -> view -> A) s : wp (ext t f) s (fun a _ => exists n v, a = f n v).
  Proof. apply wp_seq; [apply wp_tick|]. intros n s1 _. apply wp_bget. apply wp_ret. eauto. Qed.
  Lemma wp_set_wd t k w s : c = Some t -> wp (set_wd t k w) s T.
  Proof. intros. by apply wp_upd_ti. Qed.

  Definition may_set (s : st) (i : nat) : Prop := forall y, s_insts s !! i = Some y -> may_note E s i y.
  Lemma wp_set_attrs_own t tk tr i m s :
    c = Some t -> ti_is s t i tk -> all_named_for E (t_id tk) m -> (is_Some (m !! "_E") -> may_set s i) ->
    tr = e_track E -> wp (set_attrs tr i m) s T.
  Proof.
    intros Hc Ht Hm He ->. apply wp_binst. intros y Hy.
    eapply wp_exact; [reflexivity| |done]. intros _.
    eapply S_set; [done| |done]. left. exists t, tk. split_and!; [done..|]. intros H. by apply He.
  Qed.
  Lemma wp_set_values t tk i m s : c = Some t -> ti_is s t i tk -> all_named_for E (t_id tk) m ->
    (is_Some (m !! "_E") -> may_set s i) -> wp (set_values E i m) s T.
  Proof. intros. by eapply wp_set_attrs_own. Qed.
  Lemma wp_set_value t tk i n v s :
    c = Some t -> ti_is s t i tk ->
    named_for E (t_id tk) n -> (n = "_E" -> may_set s i) -> wp (set_value E i n v) s T.
  Proof.
    intros Hc Ht Hn He. eapply wp_set_values; [done..| |].
    - by intros k w [<- _]%lookup_singleton_Some.
    - intros [w [Hw _]%lookup_singleton_Some]. by apply He.
  Qed.
  Lemma wp_set_attrs_new tr i m s :
    nstarted s c i -> wp (set_attrs tr i m) s (fun _ s' => nstarted s' c i).
  Proof.
    intros Hn. apply wp_binst. intros y Hy.
    eapply wp_exact; [reflexivity| |].
    - intros _. destruct (Hn) as (y' & Hy' & Hst & Hh).
      eapply S_set; [done|right; split|]; congruence.
    - destruct Hn as (y' & Hy' & Hst & Hh). eexists. simpl. rewrite lookup_alter, Hy'. done.
  Qed.

  Lemma wp_get_return_data i s : wp (get_return_data i) s T.
  Proof.
    apply wp_binst. intros y Hy. destruct (i_rdata y); [by apply wp_ret|].
    destruct (d_md (i_def y)) as [[? [mdo|]]|]; try by apply wp_ret.
    apply wp_seq; [by apply wp_upd_inst|]. intros. by apply wp_ret.
  Qed.
  Lemma wp_post_flow_event i s : wp (post_flow_event E i) s T.
  Proof.
    unfold post_flow_event. destruct (e_listener E); [|by apply wp_ret].
    apply wp_binst. intros y Hy. apply wp_seq; [|intros; by apply wp_log]. case_bool_decide; [by apply wp_ret|].
    apply wp_seq; [apply wp_get_return_data|]. intros. by apply wp_ret.
  Qed.

  (** Setting a flow status is one step followed by posting the event. *)
  Lemma wp_set_flow_status i z s :
    (forall y, s_insts s !! i = Some y -> astep E c s (p_fstat i z s)) ->
    wp (set_flow_status E i z) s (fun _ s' => lately s' (EvFlowStatus i z)).
  Proof.
    intros H. apply wp_binst. intros y Hy.
    change (wp ((upd_inst i (set_i_status z) ;; log_ev (EvFlowStatus i z)) ;; post_flow_event E i) s
              (fun _ s' => lately s' (EvFlowStatus i z))).
    eapply wp_bind.
    - eapply (wp_exact E c _ tt s (p_fstat i z s) (fun _ s' => lately s' (EvFlowStatus i z)));
        [reflexivity|eauto|].
      apply lately_here.
    - intros [] s' _ G HL. eapply wp_weaken; [apply wp_post_flow_event|].
      intros [] s'' St _. eauto using asteps_lately.
  Qed.

  Lemma wp_set_task_status t z s :
    (forall x, s_tis s !! t = Some x -> astep E c s (p_tstat t x z s)) ->
    wp (set_task_status t z) s (fun _ s' => exists x, s_tis s !! t = Some x /\ s' = p_tstat t x z s).
  Proof.
    intros H. apply wp_bti. intros x Hx.
    eapply wp_exact; [reflexivity|eauto|]. eauto.
  Qed.
  Lemma wp_end_status t z s :
    c = Some t -> z = TDone \/ z = TFailed \/ z = TWaiting -> wp (set_task_status t z) s T.
  Proof. intros. eapply wp_T, wp_set_task_status. intros. by eapply S_end. Qed.

  Lemma wp_track_task t s : c = Some t -> wp (track_task t) s T.
  Proof. intros. apply wp_bti. intros x Hx. apply wp_step; [|done]. intros. by eapply S_track. Qed.

  Lemma wp_find_or_create_task i tk s d h :
    act_inst s c i -> inst_is s i d h -> tk ∈ all_tasks d ->
    wp (find_or_create_task i tk) s (fun t s' => registered s' i (t_id tk) t).
  Proof.
    intros Ha Hi Htk. apply wp_binst. intros y Hy.
    destruct (inst_is_fun _ _ _ _ _ Hi Hy) as [<- <-].
    destruct (i_tasks y !! t_id tk) as [t|] eqn:Et.
    - apply wp_ret. exists y. done.
    - unfold new_tinst. destruct (t_act tk) eqn:Ea.
      + eapply wp_exact; [reflexivity| |].
        * intros [A _]. eapply (S_tnew E c s i y tk); try done; [by rewrite Ea|]. by apply A.
        * eexists. simpl. rewrite lookup_alter, Hy. simpl. split; [done|]. simpl. by rewrite lookup_insert.
      + intros F. simpl. split; [constructor|done].
  Qed.

  (** Creating link instances touches nothing else. *)
  Definition lframe (s s' : st) : Prop :=
    s_tis s' = s_tis s /\
    (forall i id t, registered s i id t -> registered s' i id t) /\
    (forall i y, s_insts s !! i = Some y -> exists y', s_insts s' !! i = Some y' /\ i_status y' = i_status y).
  Lemma wp_find_or_create_link t x l s :
    s_tis s !! t = Some x -> act_inst s c (ti_inst x) -> l ∈ t_from (ti_task x) ++ t_to (ti_task x) ->
    wp (find_or_create_link (ti_inst x) l) s (fun _ s' => lframe s s').
  Proof.
    intros Hx Ha Hl. apply wp_binst. intros y Hy. destruct (i_links y !! l_id l) eqn:El.
    - apply wp_ret. split_and!; eauto.
    - eapply wp_exact; [reflexivity| |].
      + intros _. by eapply S_lnew.
      + split_and!; [done| |].
        * intros i id t' (z & Hz & Ht). unfold registered. simpl.
          destruct (decide (i = ti_inst x)) as [->|].
          -- rewrite lookup_alter, Hz. simpl. eexists. split; [done|]. done.
          -- rewrite lookup_alter_ne by done. eauto.
        * intros i z Hz. simpl. destruct (decide (i = ti_inst x)) as [->|].
          -- rewrite lookup_alter, Hz. simpl. eexists. split; [done|]. done.
          -- rewrite lookup_alter_ne by done. eauto.
  Qed.
  Lemma lframe_trans s1 s2 s3 : lframe s1 s2 -> lframe s2 s3 -> lframe s1 s3.
  Proof.
    intros (A1 & B1 & C1) (A2 & B2 & C2). split_and!; [congruence|eauto|].
    intros i y Hy. destruct (C1 i y Hy) as (y1 & Hy1 & E1). destruct (C2 i y1 Hy1) as (y2 & Hy2 & E2).
    exists y2. split; congruence.
  Qed.
  Lemma lframe_refl s : lframe s s.
  Proof. split_and!; eauto. Qed.
  Lemma wp_links t x ls s :
    s_tis s !! t = Some x -> act_inst s c (ti_inst x) ->
    (forall l, l ∈ ls -> l ∈ t_from (ti_task x) ++ t_to (ti_task x)) ->
    wp (iterM (find_or_create_link (ti_inst x)) ls) s (fun _ s' => lframe s s').
  Proof.
    intros Hx Ha Hls. eapply (wp_iterM _ _ _ (lframe s)); [apply lframe_refl| |done].
    intros l s' Hl St G HI. apply (act_inst_grows _ _ _ _ G) in Ha.
    eapply wp_weaken; [apply (wp_find_or_create_link t)|].
    - by rewrite (proj1 HI).
    - done.
    - eauto.
    - intros [] s'' _ HL. eauto using lframe_trans.
  Qed.
  Lemma wp_from_links t s i :
    act_inst s c i -> (exists tk, ti_is s t i tk) ->
    wp (from_links t) s (fun ls s' => lframe s s' /\ exists x, s_tis s !! t = Some x /\ ls = t_from (ti_task x)).
  Proof.
    intros Ha [tk Ht]. apply wp_bti. intros x Hx. destruct (ti_is_fun _ _ _ _ _ Ht Hx) as [<- <-].
    eapply wp_seq'; [apply (wp_links t x); [done|done|]|].
    - intros l Hl. set_solver.
    - intros [] s' G HL. apply wp_ret. eauto.
  Qed.
  Lemma wp_to_links t s i :
    act_inst s c i -> (exists tk, ti_is s t i tk) ->
    wp (to_links t) s (fun ls s' => lframe s s' /\ exists x, s_tis s !! t = Some x /\ ls = t_to (ti_task x)).
  Proof.
    intros Ha [tk Ht]. apply wp_bti. intros x Hx. destruct (ti_is_fun _ _ _ _ _ Ht Hx) as [<- <-].
    eapply wp_seq'; [apply (wp_links t x); [done|done|]|].
    - intros l Hl. set_solver.
    - intros [] s' G HL. apply wp_ret. eauto.
  Qed.

  Lemma wp_need_cov ic i id s : wp (need_cov ic i id) s T.
  Proof. unfold need_cov. destruct (ic_cov ic); [by apply wp_log|apply wp_panic]. Qed.

  Lemma wp_set_link_status t i tk l z s :
    act_inst s c i -> ti_is s t i tk -> l ∈ t_to tk -> closing s c t i (t_id tk) ->
    z = LFalse \/ z = LTrue \/ z = LSkipped ->
    wp (set_link_status E i l z) s T.
  Proof.
    intros Ha (x & Hx & <- & <-) Hl Hf Hz. apply wp_binst. intros y Hy.
    change (wp ((upd_inst (ti_inst x) (fun x => set_i_links (<[l_id l := z]> (i_links x)) x) ;;
                 log_ev (EvLinkSet (ti_inst x) (l_id l) z)) ;;
      (if bool_decide (z = LTrue)
       then match e_icpt E with Some c => need_cov c (ti_inst x) (l_label l) | None => ret tt end
       else ret tt) ;;
      log_ev (EvLinkUpd (ti_inst x) (l_id l) z)) s T).
    eapply (wp_seq' _ _ _ (fun (_ : unit) s' => logged s' (EvLinkSet (ti_inst x) (l_id l) z))).
    { eapply wp_exact; [reflexivity| |apply elem_of_list_here]. intros _. by eapply (S_lset E c s t x y). }
    intros [] s1 G1 HL. apply wp_seq.
    { case_bool_decide; [destruct (e_icpt E) as [ic|]; [apply wp_need_cov|]|]; by apply wp_ret. }
    intros [] s2 G2. fwd G2. apply wp_step; [|done]. intros _. by apply S_lupd.
  Qed.

  Lemma wp_release_task t i tk s :
    act_inst s c i -> ti_is s t i tk -> closing s c t i (t_id tk) -> wp (release_task i tk) s T.
  Proof.
    intros Ha Ht Hf. apply wp_binst. intros y Hy.
    change (wp ((upd_inst i (fun x => set_i_tasks (delete (t_id tk) (i_tasks x)) x) ;;
                 log_ev (EvTaskDel i (t_id tk))) ;;
              iterM (fun l =>
                get_inst i ;;
                upd_inst i (fun x => set_i_links (delete (l_id l) (i_links x)) x) ;;
                log_ev (EvLinkDel i (l_id l))) (t_from tk)) s T).
    apply wp_seq.
    - eapply wp_exact; [reflexivity| |done]. intros _. destruct Ht as (x & Hx & <- & <-).
      by eapply S_tdel.
    - intros [] s' G. fwd G. apply (wp_iterM _ _ _ (fun _ => True)); [done| |done].
      intros l s2 Hl St G2 _. fwd G2. apply wp_binst. intros y2 Hy2.
      eapply wp_exact; [reflexivity| |done]. intros _. destruct Ht as (x & Hx & <- & <-).
      by eapply S_ldel.
  Qed.

  Lemma wp_schedule t s :
    (forall x, s_tis s !! t = Some x ->
       sched_new s c t x \/ c = Some t \/
       (exists i d, inst_is s i d (Some t) /\ act_inst s c i /\
                    (lately s (EvFlowStatus i FCompleted) \/ lately s (EvFlowStatus i FFailed)))) ->
    wp (schedule_eval t) s T.
  Proof.
    intros H. apply wp_bti. intros x Hx. eapply wp_exact; [reflexivity| |done].
    intros _. apply S_sched; eauto.
  Qed.

  Lemma wp_record_state i s : i <> 0%nat -> now_failed (s_log s) i -> wp (record_state E) s T.
  Proof.
    intros Hi Hr. unfold record_state. destruct (e_rec E) as [m|]; [|apply wp_panic].
    eapply (wp_seq' _ _ _ (fun _ s' => just_failed (s_log s') i)).
    - destruct (record_snapshot m); [|apply wp_ret; by left]. destruct (e_ext E); [|apply wp_panic].
      apply wp_bget. apply (wp_exact E c _ tt s (p_log (EvSnapshot (take_snapshot s)) s)); [done| |].
      + intros _. apply S_snap.
      + right. exists (take_snapshot s), (s_log s). done.
    - intros [] s' G Hj. destruct (record_steps m); [|by apply wp_ret].
      destruct (e_ext E); [|apply wp_panic]. apply wp_step; [|done]. intros _. by eapply S_rec.
  Qed.

  (** ** Behaviours *)

  Lemma registered_is s i id t : fresh s -> registered s i id t -> exists tk, ti_is s t i tk /\ t_id tk = id.
  Proof. intros (_ & _ & H & _). eauto. Qed.

  Lemma registered_p_tstat s i id t t' x z :
    registered s i id t -> registered (p_tstat t' x z s) i id t.
  Proof. done. Qed.

  Lemma wp_enter i id t s :
    act_inst s c i -> registered s i id t ->
    wp (enter t) s (fun r s' =>
      match r with
      | ERNotReady => True
      | ERSkip => exists x, s_tis s' !! t = Some x /\ ti_status x = TSkipped
      | EREval => rdyT s' t /\ readied s' i id /\ registered s' i id t /\
          exists x, s_tis s' !! t = Some x /\ ti_status x = TReady
      end).
  Proof.
    intros Ha Hr. apply wp_fresh. intros F. destruct (registered_is _ _ _ _ F Hr) as (tk & Htk & <-).
    clear F. eapply wp_seq'.
    { apply wp_set_task_status. intros x Hx. by eapply S_enter. }
    intros [] s1 G1 (x & Hx & Hs1).
    destruct (ti_is_fun _ _ _ _ _ Htk Hx) as [Hxi Hxt].
    assert (registered s1 i (t_id tk) t) as Hr1 by (subst s1; done).
    assert (s_tis s1 !! t = Some (set_ti_status TEntered x)) as Hx1
      by (subst s1; simpl; rewrite lookup_alter, Hx; done).
    fwd G1.
    eapply wp_seq'; [apply (wp_from_links t _ i); eauto|].
    intros ls s2 G2 ((L1 & L2 & L3) & x1 & Hx1' & ->).
    rewrite Hx1 in Hx1'. injection Hx1' as <-. simpl.
    apply wp_bti. intros x2 Hx2. rewrite L1, Hx1 in Hx2. injection Hx2 as <-. simpl.
    apply wp_binst. intros y Hy.
    assert (s_tis s2 !! t = Some (set_ti_status TEntered x)) as Hx2 by (rewrite L1; done).
    apply (act_inst_grows _ _ _ _ G2) in Ha. apply L2 in Hr1.
    destruct (scan_links _ _ _) as [[]|] eqn:Esc; [| |by apply wp_ret].
    - eapply wp_seq'.
      { apply wp_set_task_status. intros z Hz. rewrite Hx2 in Hz. injection Hz as <-.
        by eapply (S_skip E c s2 i (t_id tk) t (set_ti_status TEntered x) y). }
      intros [] s3 G3 (z & Hz & ->). rewrite Hx2 in Hz. injection Hz as <-. apply wp_ret.
      eexists. simpl. rewrite lookup_alter, Hx2. done.
    - eapply wp_seq'.
      { apply wp_set_task_status. intros z Hz. rewrite Hx2 in Hz. injection Hz as <-.
        by eapply (S_ready E c s2 i (t_id tk) t (set_ti_status TEntered x) y). }
      intros [] s3 G3 (z & Hz & ->). rewrite Hx2 in Hz. injection Hz as <-.
      apply wp_fresh. intros (_ & _ & _ & _ & _ & R). apply wp_ret. split_and!.
      + eapply R; [simpl; by rewrite lookup_alter, Hx2|done].
      + rewrite <- Hxi, <- Hxt. apply elem_of_list_here.
      + done.
      + eexists. simpl. rewrite lookup_alter, Hx2. done.
  Qed.

  Definition links_fail : Prop := exists n v l e, e_link E n v l = XErr e.
  Lemma wp_eval_link t l s : wp (eval_link E t l) s (fun r _ => match r with inl _ => links_fail | inr _ => True end).
  Proof.
    apply wp_bti. intros x Hx. destruct (l_expr l).
    - eapply wp_seq'; [apply wp_ext_of|]. intros r s' G (n & v & Hr). destruct r;
        (apply wp_seq; [by apply wp_log|]; intros; apply wp_ret); [done| |done]. exists n, v, l. by eexists.
    - apply wp_seq; [by apply wp_log|]. intros. by apply wp_ret.
  Qed.

  Lemma wp_done_link t i tk l a s :
    act_inst s c i -> ti_is s t i tk -> l ∈ t_to tk -> closing s c t i (t_id tk) ->
    (forall e, e ∈ da_es a -> e.1 ∈ t_to tk) -> (forall l', da_oth a = Some l' -> l' ∈ t_to tk) ->
    wp (done_link E t i l a) s (fun r _ =>
      match r with
      | inl _ => links_fail
      | inr a' => (forall e, e ∈ da_es a' -> e.1 ∈ t_to tk) /\ (forall l', da_oth a' = Some l' -> l' ∈ t_to tk)
      end).
  Proof.
    intros Ha Ht Hl Hf He Ho. apply wp_seq; [eapply (wp_set_link_status t); eauto|].
    intros [] s1 G1. fwd G1.
    assert (forall z e, e ∈ da_es a ++ [(l, z)] -> e.1 ∈ t_to tk) as He'.
    { intros z e [H| ->%elem_of_list_singleton]%elem_of_app; eauto. }
    destruct (l_type l).
    - apply wp_seq; [eapply (wp_set_link_status t); eauto|]. intros [] s2 G2. apply wp_ret. eauto.
    - eapply wp_seq'; [apply wp_eval_link|]. intros [e|[]] s2 G2 HL; fwd G2.
      + by apply wp_ret.
      + apply wp_seq; [eapply (wp_set_link_status t); eauto|]. intros [] s3 G3. apply wp_ret. eauto.
      + apply wp_ret. eauto.
    - apply wp_seq; [eapply (wp_set_link_status t); eauto|]. intros [] s2 G2. apply wp_ret. eauto.
    - apply wp_ret. eauto.
    - apply wp_ret. split; [eauto|]. simpl. intros l' [= <-]. done.
  Qed.

  Lemma wp_done_links t i tk ls a s :
    act_inst s c i -> ti_is s t i tk -> (forall l, l ∈ ls -> l ∈ t_to tk) -> closing s c t i (t_id tk) ->
    (forall e, e ∈ da_es a -> e.1 ∈ t_to tk) -> (forall l', da_oth a = Some l' -> l' ∈ t_to tk) ->
    wp (done_links E t i ls a) s (fun r _ =>
      match r with
      | inl _ => links_fail
      | inr a' => (forall e, e ∈ da_es a' -> e.1 ∈ t_to tk) /\ (forall l', da_oth a' = Some l' -> l' ∈ t_to tk)
      end).
  Proof.
    revert a s. induction ls as [|l ls IH]; intros a s Ha Ht Hl Hf He Ho; simpl; [by apply wp_ret|].
    eapply wp_seq'; [eapply wp_done_link; eauto; set_solver|].
    intros [e|a'] s1 G1; simpl; [intros ?; by apply wp_ret|]. intros [He' Ho']. fwd G1.
    apply IH; eauto. set_solver.
  Qed.

  Lemma find_task_in ts id tk : find_task ts id = Some tk -> tk ∈ ts.
  Proof.
    unfold find_task. destruct (list_find _ _) as [[k t]|] eqn:El; simpl; [|done].
    intros [= <-]. apply list_find_Some in El. destruct El as (Hk & _). by eapply elem_of_list_lookup_2.
  Qed.
  Lemma link_target_in d l tk : link_target d l = Some tk -> tk ∈ all_tasks d.
  Proof.
    unfold link_target, get_eh_task, get_task, all_tasks. intros H. rewrite elem_of_app.
    destruct (l_eh l); [destruct (d_eh d); [|done]|]; eauto using find_task_in.
  Qed.
  Lemma resolve_entries_in d es r :
    resolve_entries d es = Some r -> forall e, e ∈ r -> e.1 ∈ all_tasks d.
  Proof.
    revert r. induction es as [|[l z] es IH]; simpl; intros r.
    - intros [= <-] e. by rewrite elem_of_nil.
    - destruct (link_target d l) eqn:El; [|done]. destruct (resolve_entries d es) eqn:Er; [|done].
      intros [= <-] e [->|He]%elem_of_cons; simpl; eauto using link_target_in.
  Qed.

  (** The entries name tasks of the definition of flow instance [i]. *)
  Definition good_entries (s : st) (i : nat) (es : list entry) : Prop :=
    exists d h, inst_is s i d h /\ forall e, e ∈ es -> e.1 ∈ all_tasks d.
  Lemma good_grows s s' i es : grows s s' -> good_entries s i es -> good_entries s' i es.
  Proof. intros G (d & h & Hi & He). exists d, h. eauto using inst_is_grows. Qed.
  Lemma good_nil s i d h : inst_is s i d h -> good_entries s i [].
  Proof. intros Hi. exists d, h. split; [done|]. intros e. by rewrite elem_of_nil. Qed.

  Lemma wp_entries_of i es s : wp (entries_of i es) s (fun r s' => good_entries s' i r).
  Proof.
    apply wp_binst. intros y Hy. destruct (resolve_entries _ _) eqn:Er; [|apply wp_panic].
    apply wp_ret. exists (i_def y), (i_host y). split; [by apply inst_is_intro|].
    by eapply resolve_entries_in.
  Qed.

  Lemma sort_entries_in {A} (l : list (A * Z)) e : e ∈ sort_entries l <-> e ∈ l.
  Proof.
    assert (Hins : forall (e' : A * Z) l', e ∈ insert_entry e' l' <-> e = e' \/ e ∈ l').
    { intros e' l'. induction l' as [|a l' IH]; simpl; [set_solver|].
      destruct (e'.2 <=? a.2); set_solver. }
    induction l as [|a l IH]; simpl; [done|]. rewrite Hins, IH. set_solver.
  Qed.

  Lemma logged_tstat s t x z : logged (p_tstat t x z s) (EvTaskUpd (ti_inst x) (t_id (ti_task x)) z).
  Proof. apply elem_of_list_here. Qed.

  Lemma wp_beh_done t i tk s :
    c = Some t -> ti_is s t i tk ->
    wp (beh_done E t) s (fun r s' =>
      closing s' c t i (t_id tk) /\
      match r with inl _ => links_fail | inr (n, es) => if n then es = [] else good_entries s' i es end).
  Proof.
    intros Hc Ht. assert (act_inst s c i) as Ha by (left; eauto).
    eapply wp_seq'; [apply (wp_to_links t _ i); eauto|].
    intros ls s1 G1 (_ & x & Hx & ->). destruct (ti_is_fun _ _ _ _ _ Ht Hx) as [<- <-]. fwd G1.
    eapply wp_seq'.
    { apply wp_set_task_status. intros z Hz. eapply S_end; eauto. }
    intros [] s2 G2 (z & Hz & ->).
    assert (closing (p_tstat t z TDone s1) c t (ti_inst x) (t_id (ti_task x))) as Hf.
    { split; [|by left]. destruct (ti_is_fun _ _ _ _ _ Ht Hz) as [<- <-]. exists TDone. split; [by left|]. apply logged_tstat. }
    fwd G2. clear Hx Hz. set (s2 := p_tstat t z TDone s1) in *. clearbody s2. clear G1 G2.
    apply wp_bti. intros x' Hx'. destruct (ti_is_fun _ _ _ _ _ Ht Hx') as [-> Ht'].
    destruct (t_to (ti_task x)) as [|l0 ls0] eqn:Els; [by apply wp_ret|]. rewrite <- Els.
    eapply wp_seq'; [eapply (wp_done_links t (ti_inst x) (ti_task x)); eauto|].
    { intros e; by rewrite elem_of_nil. }
    { done. }
    intros [e|a] s3 G3; simpl; [intros ?; fwd G3; by apply wp_ret|]. intros [He Ho]. fwd G3.
    apply wp_seq.
    { destruct (da_oth a) as [l|] eqn:Eo; [|by apply wp_ret].
      destruct (da_has a && negb (da_fol a)); [|by apply wp_ret].
      apply wp_seq; [eapply (wp_set_link_status t); eauto|]. intros. by apply wp_ret. }
    intros es s4 G4. fwd G4.
    eapply wp_seq'; [apply wp_entries_of|]. intros r s5 G5 Hr. fwd G5. by apply wp_ret.
  Qed.

  Lemma wp_beh_skip t i tk s :
    act_inst s c i -> ti_is s t i tk -> (exists x, s_tis s !! t = Some x /\ ti_status x = TSkipped) ->
    wp (beh_skip E t) s (fun r s' =>
      closing s' c t i (t_id tk) /\ (if r.1.1 then r.1.2 = [] else good_entries s' i r.1.2)).
  Proof.
    intros Ha Ht (x & Hx & Hst). apply wp_fresh. intros (_ & _ & _ & F & _ & R).
    assert (rdy s t) as Hrd by (by eapply R).
    assert (logged s (EvTaskUpd i (t_id tk) TSkipped)) as Hlg.
    { destruct (ti_is_fun _ _ _ _ _ Ht Hx) as [<- <-]. rewrite <- Hst. apply (F t x); [done|]. by rewrite Hst. }
    clear F R.
    eapply wp_seq'; [apply (wp_to_links t _ i); eauto|].
    intros ls s1 G1 ((L1 & _ & _) & x0 & Hx0 & ->). rewrite Hx in Hx0. injection Hx0 as <-.
    assert (s_tis s1 !! t = Some x) as Hx1 by (by rewrite L1).
    destruct (ti_is_fun _ _ _ _ _ Ht Hx) as [<- <-]. fwd G1.
    eapply wp_seq'.
    { apply wp_set_task_status. intros z Hz. rewrite Hx1 in Hz. injection Hz as <-. eapply S_reskip; eauto. }
    intros [] s2 G2 (z & Hz & ->).
    assert (closing (p_tstat t z TSkipped s1) c t (ti_inst x) (t_id (ti_task x))) as Hf.
    { split; [|right; by eapply rdy_grows]. exists TSkipped. split; [by right; left|]. rewrite Hx1 in Hz. injection Hz as <-. apply logged_tstat. }
    fwd G2. clear Hx Hz Hx1 L1. set (s2 := p_tstat t z TSkipped s1) in *. clearbody s2. clear G1 G2.
    apply wp_bti. intros x' Hx'. destruct (ti_is_fun _ _ _ _ _ Ht Hx') as [-> Ht'].
    destruct (t_to (ti_task x)) as [|l0 ls0] eqn:Els; [by apply wp_ret|]. rewrite <- Els.
    apply wp_seq.
    { apply (wp_iterM _ _ _ (fun _ => True)); [done| |done].
      intros l s3 Hl St G3 _. fwd G3. apply (wp_set_link_status t (ti_inst x) (ti_task x)); eauto. }
    intros [] s3 G3. fwd G3.
    eapply wp_seq'; [apply wp_entries_of|]. intros r s5 G5 Hr. fwd G5. by apply wp_ret.
  Qed.

  Lemma wp_beh_error t i tk s :
    act_inst s c i -> ti_is s t i tk -> closing s c t i (t_id tk) ->
    wp (beh_error E t) s (fun r s' => r.1 = true -> good_entries s' i r.2).
  Proof.
    intros Ha Ht Hf.
    eapply wp_seq'; [apply (wp_to_links t _ i); eauto|].
    intros ls s1 G1 (_ & x & Hx & ->). destruct (ti_is_fun _ _ _ _ _ Ht Hx) as [<- <-]. fwd G1.
    apply wp_bti. intros x' Hx'. destruct (ti_is_fun _ _ _ _ _ Ht Hx') as [-> Ht'].
    destruct (existsb is_error_link (t_to (ti_task x))); [|by apply wp_ret].
    apply wp_seq.
    { apply (wp_iterM _ _ _ (fun _ => True)); [done| |done].
      intros l s3 Hl St G3 _. apply ti_is_intro in Hx'. rewrite Ht' in Hx'. fwd G3.
      apply (wp_set_link_status t (ti_inst x) (ti_task x)); eauto.
      destruct (is_error_link l); auto. }
    intros [] s3 G3.
    eapply wp_seq'; [apply wp_entries_of|]. intros r s5 G5 Hr. by apply wp_ret.
  Qed.

  (** ** Entering tasks, finishing tasks, errors *)

  (** Only data of task instances changes. *)
  Definition tables_kept s s' : Prop :=
    s_insts s' = s_insts s /\
    forall t x, s_tis s !! t = Some x -> exists x', s_tis s' !! t = Some x' /\ ti_status x' = ti_status x.
  Lemma tables_kept_ti s t f : ti_data f -> tables_kept s (p_ti t f s).
  Proof.
    intros Hf. split; [done|]. intros t' x Hx. unfold p_ti. simpl. destruct (decide (t = t')) as [->|].
    - rewrite lookup_alter, Hx. simpl. eexists. split; [done|]. apply Hf.
    - rewrite lookup_alter_ne by done. eauto.
  Qed.
  Lemma tables_kept_trans s1 s2 s3 : tables_kept s1 s2 -> tables_kept s2 s3 -> tables_kept s1 s3.
  Proof.
    intros [A1 B1] [A2 B2]. split; [congruence|]. intros t x Hx. destruct (B1 _ _ Hx) as (x1 & Hx1 & E1).
    destruct (B2 _ _ Hx1) as (x2 & Hx2 & E2). exists x2. split; [done|congruence].
  Qed.
  Lemma wp_apply_settings t s : wp (apply_settings E t) s (fun _ s' => tables_kept s s').
  Proof.
    apply wp_bti. intros x Hx. destruct (t_set (ti_task x)); [|apply wp_ret; split; eauto].
    eapply wp_seq'.
    { eapply (wp_exact E c _ _ s (set_s_tick (S (s_tick s)) s) (fun _ s' => tables_kept s s'));
        [reflexivity|intros; apply S_tick|]. split; eauto. }
    intros [m|e|m] s' G K; [| |apply wp_panic];
      (eapply wp_seq'; [eapply (wp_exact E c _ tt s' _ (fun _ s'' => tables_kept s' s''));
        [reflexivity|intros; apply S_tdata; [done|by right]|by apply tables_kept_ti]|];
       intros [] s2 G2 K2; apply wp_ret; by eapply tables_kept_trans).
  Qed.

  Lemma wp_with_lock {A} (m : M A) s :
    (forall s', grows s s' -> wp m s' T) -> wp (with_lock E m) s T.
  Proof.
    intros Hm. unfold with_lock. destruct (e_conc E); [|apply Hm, grows_refl].
    apply wp_bget. destruct (s_lock s); [apply wp_blocked|].
    apply wp_seq; [apply wp_step; [|done]; intros; apply S_lock|].
    intros [] s' G. eapply wp_finally; [by apply Hm| |done].
    intros. apply wp_step; [|done]. intros; apply S_lock.
  Qed.

  Lemma wp_enter_list skip i es s :
    (forall t s' tk, act_inst s' c i -> ti_is s' t i tk ->
       (exists x, s_tis s' !! t = Some x /\ ti_status x = TSkipped) ->
       wp (skip t) s' T) ->
    act_inst s c i -> good_entries s i es -> wp (enter_list E skip i es) s T.
  Proof.
    intros Hskip. revert s. induction es as [|[tk z] es IH]; intros s Ha Hg; simpl; [by apply wp_ret|].
    destruct Hg as (d & h & Hi & He).
    assert (forall s', grows s s' -> act_inst s' c i /\ good_entries s' i es) as Hmon.
    { intros s' G. fwd G. split; [done|]. exists d, h. split; [done|]. intros e Hin. apply He. set_solver. }
    eapply wp_seq'; [eapply wp_find_or_create_task; eauto; eapply (He (tk, z)); set_solver|].
    intros t s1 G1 Hr. apply wp_bti. intros x Hx.
    destruct (e_conc E && ti_sched x); [by apply IH; apply Hmon|].
    apply wp_fresh. intros F1. destruct (registered_is _ _ _ _ F1 Hr) as (tk' & Htk' & Hid).
    clear F1. eapply wp_seq'; [apply (wp_enter i (t_id tk) t); [by apply Hmon|done]|].
    intros r s2 G2 Hq. pose proof (grows_trans _ _ _ G1 G2) as G12.
    destruct r.
    - apply IH; by apply Hmon.
    - eapply wp_seq'; [apply wp_apply_settings|]. intros [e|] s3 G3 K3; [by apply wp_ret|].
      pose proof (grows_trans _ _ _ G12 G3) as G13.
      eapply wp_seq'; [eapply (wp_exact E c _ tt s3 _ (fun _ s'' => tables_kept s3 s''));
        [reflexivity|intros; apply S_tdata; [done|by right]|by apply tables_kept_ti]|].
      intros [] s4 G4 K4. pose proof (tables_kept_trans _ _ _ K3 K4) as [K K'].
      pose proof (grows_trans _ _ _ G13 G4) as G14.
      apply wp_seq.
      + apply wp_schedule. intros x4 Hx4. left.
        assert (ti_is s4 t i tk') as Htk4.
        { eapply ti_is_grows; [|done]. eauto using grows_trans. }
        unfold sched_new. destruct (ti_is_fun _ _ _ _ _ Htk4 Hx4) as [-> ->]. rewrite Hid.
        destruct Hq as (Hq1 & Hq2 & Hq3 & x2 & Hx2 & Hst2).
        split_and!; [| |by apply Hmon|unfold registered; rewrite K; done|
          destruct (K' _ _ Hx2) as (x4' & Hx4' & ?); congruence].
        * eapply rdyT_grows; [|done]. eauto using grows_trans.
        * eapply readied_grows; [|done]. eauto using grows_trans.
      + intros [] s5 G5. pose proof (grows_trans _ _ _ G14 G5) as G15. apply IH; by apply Hmon.
    - apply wp_seq.
      + eapply (Hskip _ _ tk'); try done.
        * by apply Hmon.
        * eapply ti_is_grows; [exact G2|exact Htk'].
      + intros [] s3 G3. pose proof (grows_trans _ _ _ G12 G3) as G13. apply IH; by apply Hmon.
  Qed.

  Lemma start_entries_in ts e : e ∈ start_entries ts -> e.1 ∈ ts.
  Proof.
    unfold start_entries. intros (tk & -> & H)%elem_of_list_fmap. simpl.
    apply elem_of_list_In in H. apply filter_In in H as [H _]. by apply elem_of_list_In.
  Qed.

  Lemma wp_clear_tasks s i d h eh :
    act_inst s c i -> inst_is s i d h -> d_eh d = Some eh -> wp clear_tasks s T.
  Proof.
    intros Ha (y & Hy & <- & <-) Heh. apply wp_binst. intros y0 Hy0.
    eapply wp_exact; [reflexivity| |done]. intros _. by apply (S_clear E c s i y eh y0).
  Qed.

  Lemma wp_keep {A} (m : M A) s (Q P : A -> st -> Prop) :
    wp m s Q -> (forall a s', m s = (Ok a, s') -> P a s') -> wp m s (fun a s' => Q a s' /\ P a s').
  Proof. intros W H F. destruct (W F) as [St HQ]. split; [done|]. intros a Ha. split; [by apply HQ|]. apply H. destruct (m s). simpl in *. congruence. Qed.
  Lemma flow_status_last i z s a s' : set_flow_status E i z s = (Ok a, s') ->
    exists r, s_log s' = EvFlowStatus i z :: r \/ exists j k ins outs e, s_log s' = EvFlowEvent j k ins outs e :: EvFlowStatus i z :: r.
  Proof.
    unfold set_flow_status, bind, get_inst, get, upd_inst, log_ev, modify, ret, panic, bind.
    destruct (s_insts s !! i) as [y|] eqn:Hy; [|done]. set (s1 := set_s_log _ _). intros H.
    assert (exists r, s_log s1 = EvFlowStatus i z :: r) as [r Hr] by by eexists. clearbody s1. exists r. revert H.
    unfold post_flow_event, bind, get_inst, get, get_return_data, upd_inst, modify, log_ev, ret, panic, bind, modify.
    destruct (e_listener E); [|intros [= _ <-]; by left].
    destruct (s_insts s1 !! i) as [y1|] eqn:Hy1; [|done]. intros H. right. revert H. unfold flow_event.
    case_bool_decide; [intros [= _ <-]; simpl; rewrite Hr; by eauto 10|]. unfold get_inst, bind, get, ret. rewrite Hy1.
    destruct (i_rdata y1); [intros [= _ <-]; simpl; rewrite Hr; by eauto 10|].
    destruct (d_md _) as [[? [mdo|]]|]; intros [= _ <-]; simpl; rewrite Hr; by eauto 10.
  Qed.
  Lemma wp_ffailed i s : act_inst s c i ->
    wp (set_flow_status E i FFailed) s (fun _ s' => lately s' (EvFlowStatus i FFailed) /\ now_failed (s_log s') i).
  Proof. intros. apply wp_keep; [|by intros; eapply flow_status_last]. apply wp_set_flow_status. intros. by eapply S_ffailed. Qed.

  Lemma wp_host_sched i d t s z :
    act_inst s c i -> inst_is s i d (Some t) -> z = FCompleted \/ z = FFailed -> lately s (EvFlowStatus i z) ->
    wp (schedule_eval t) s T.
  Proof.
    intros Ha Hi Hz Hl. apply wp_schedule. intros x Hx. right. right. exists i, d. split_and!; [done|done|].
    destruct Hz as [-> | ->]; auto.
  Qed.

  (** What is needed from enterTasks. *)
  Definition ent_ok (ent : nat -> list entry -> M (option err)) : Prop :=
    forall i es s, act_inst s c i -> good_entries s i es -> wp (ent i es) s T.

  Lemma wp_handle_global_error ent i e s :
    ent_ok ent -> act_inst s c i -> wp (handle_global_error E ent i e) s T.
  Proof.
    intros Hent Ha. apply wp_binst. intros y Hy. destruct (i_handling y) eqn:Eh.
    - eapply wp_T, wp_ffailed; done.
    - apply wp_seq.
      { apply wp_step; [|done]. intros _. by eapply S_handling. }
      intros [] s1 G1. fwd G1. destruct (d_eh (i_def y)) as [h|] eqn:Ed.
      + apply wp_seq; [by eapply wp_clear_tasks|]. intros [] s2 G2. fwd G2.
        apply wp_seq.
        * apply Hent; [done|]. exists (i_def y), (i_host y). split; [done|].
          intros en Hen%start_entries_in. unfold all_tasks. rewrite Ed. set_solver.
        * intros. by apply wp_ret.
      + eapply wp_seq'; [by apply wp_ffailed|]. intros [] s2 G2 [HL Hr]. fwd G2.
        destruct (i =? 0)%nat eqn:Ei; [by apply wp_upd_inst|]. apply Nat.eqb_neq in Ei.
        eapply wp_bind; [by eapply wp_record_state|]. intros [] s3 St3 G3 _. fwd G3. apply (asteps_lately _ _ _ _ _ St3) in HL.
        unfold host_of. intros F. revert F.
        change (wp (h <- (x <- get_inst i; ret (i_host x));
                    match h with
                    | Some ht => upd_ti ht (set_ti_rerr (Some e)) ;; schedule_eval ht
                    | None => ret ()
                    end) s3 T).
        eapply wp_seq'.
        { apply wp_binst. intros y3 Hy3. apply (wp_ret E c _ _ (fun h s' => h = i_host y /\ s' = s3)).
          split; [|done]. by eapply inst_is_fun. }
        intros h s4 G4 [-> ->]. destruct (i_host y) as [ht|] eqn:Eht; [|by apply wp_ret].
        eapply wp_bind.
        { apply wp_step; [|instantiate (1 := T); done]. intros _. destruct Hy as (y4 & ? & ? & ?). by eapply (S_hosterr E c s3 i y4). }
        intros [] s5 St5 G5 _. fwd G5. apply (asteps_lately _ _ _ _ _ St5) in HL.
        eapply wp_host_sched; eauto.
  Qed.

  Lemma wp_subs (f : st -> gset nat) s : f s ⊆ s_subs s -> wp (modify (fun s => set_s_subs (f s) s)) s T.
  Proof. intros H. apply wp_step; [|done]. intros _. by apply S_subs. Qed.

  Lemma wp_complete_flow i y s :
    act_inst s c i -> s_insts s !! i = Some y ->
    (i_force y = true \/
     (forall id t x, i_tasks y !! id = Some t -> s_tis s !! t = Some x -> TDone <= ti_status x)) ->
    wp (complete_flow E i) s T.
  Proof.
    intros Ha Hy Hd. eapply wp_seq'.
    { apply wp_set_flow_status. intros y' Hy'. by apply (S_fcompleted E c s i y). }
    intros [] s1 G1 HL. fwd G1. destruct (i =? 0)%nat eqn:Ei.
    - apply Nat.eqb_eq in Ei as ->. apply wp_step; [|done]. intros _. apply S_fdone. by apply lately_logged.
    - apply wp_binst. intros y1 Hy1. destruct (inst_is_fun _ _ _ _ _ Hy Hy1) as [Hd1 Hh1].
      apply wp_seq; [|intros; apply (wp_subs (fun s => s_subs s ∖ {[ i ]})); apply subseteq_difference_l; done].
      destruct (i_host y1) as [ht|] eqn:Eht; [|by apply wp_ret].
      eapply wp_bind.
      { apply wp_step; [|instantiate (1 := T); done]. intros _. by eapply (S_hostok E c s1 i y1). }
      intros [] s2 St2 G2 _. fwd G2. apply (asteps_lately _ _ _ _ _ St2) in HL.
      eapply wp_bind.
      { apply wp_step; [|instantiate (1 := T); done]. intros _. rewrite <- Hh1 in Hy. destruct Hy as (y2 & ? & ? & ?).
        eapply S_subdone; eauto using lately_logged. }
      intros [] s3 St3 G3 _. fwd G3. apply (asteps_lately _ _ _ _ _ St3) in HL. rewrite <- Hh1 in Hy. eapply (wp_host_sched i _ _ _ FCompleted); eauto.
  Qed.

  Lemma wp_add_activity_coverage t i tk s :
    act_inst s c i -> ti_is s t i tk -> wp (add_activity_coverage E t) s T.
  Proof.
    intros Ha Ht. unfold add_activity_coverage. destruct (e_icpt E) as [ic|]; [|by apply wp_ret].
    apply wp_seq.
    - destruct (ic_collect ic); [|by apply wp_ret].
      apply wp_seq; [eapply wp_T, (wp_from_links t _ i); eauto|]. intros ? s1 G1. fwd G1.
      apply wp_seq; [eapply wp_T, (wp_to_links t _ i); eauto|]. intros. by apply wp_ret.
    - intros [] s1 G1. apply wp_bti. intros x Hx. apply wp_need_cov.
  Qed.

  Lemma wp_flow_task_done i s :
    wp (flow_task_done i) s (fun b s' => s' = s /\ (b = true ->
      exists y, s_insts s !! i = Some y /\
        forall id t x, i_tasks y !! id = Some t -> s_tis s !! t = Some x -> TDone <= ti_status x)).
  Proof.
    apply wp_bget. apply wp_binst. intros y Hy. apply wp_ret. split; [done|].
    intros Hb. exists y. split; [done|]. intros id t x Hid Hx.
    rewrite forallb_forall in Hb. specialize (Hb (id, t)). simpl in Hb. rewrite Hx in Hb.
    apply Z.leb_le, Hb. apply elem_of_list_In. by apply elem_of_map_to_list.
  Qed.

  Lemma wp_append_error_data t i tk e s :
    c = Some t -> ti_is s t i tk -> may_set s i -> wp (append_error_data E t e) s T.
  Proof.
    intros Hc Ht Hm. apply wp_bti. intros x Hx. destruct (ti_is_fun _ _ _ _ _ Ht Hx) as [<- <-].
    apply wp_seq; [eapply wp_set_value; [done..|unfold named_for; eauto 10|done]|]. intros [] s1 G1. fwd G1. eapply wp_set_value; [done..|unfold named_for; eauto 10|done].
  Qed.
  Lemma wp_set_task_error t i tk e s :
    c = Some t -> ti_is s t i tk -> wp (set_task_error E t e) s T.
  Proof.
    intros Hc Ht. apply wp_bti. intros x Hx. destruct (ti_is_fun _ _ _ _ _ Ht Hx) as [<- <-].
    eapply wp_set_value; [done..|unfold named_for; eauto 10|done].
  Qed.

  Lemma wp_handle_task_done ent t i tk s :
    ent_ok ent -> act_inst s c i -> ti_is s t i tk ->
    (c = Some t \/ exists x, s_tis s !! t = Some x /\ ti_status x = TSkipped) ->
    wp (handle_task_done E ent t) s T.
  Proof.
    intros Hent Ha Ht Hc. apply wp_bti. intros x Hx.
    destruct (ti_is_fun _ _ _ _ _ Ht Hx) as [<- <-].
    eapply (wp_seq' _ _ _ (fun (r : err + bool * list entry) s' => closing s' c t (ti_inst x) (t_id (ti_task x)) /\
      match r with
      | inl _ => c = Some t /\ links_fail
      | inr (n, es) => if n then es = [] else good_entries s' (ti_inst x) es end)).
    - case_bool_decide as Hst.
      + eapply wp_seq'; [apply wp_beh_skip; eauto|]. intros r s1 G1 [Hf Hg]. apply wp_ret. eauto.
      + assert (c = Some t) as Hct by (destruct Hc as [|(x' & ? & ?)]; [done|congruence]).
        eapply wp_seq'; [eapply wp_beh_done; eauto|]. intros r s1 G1 [Hf Hg]. fwd G1.
        apply wp_seq; [by eapply wp_add_activity_coverage|]. intros [] s2 G2. fwd G2. apply wp_ret.
        split; [done|]. destruct r as [|[n es]]; [by split|]. destruct n; eauto using good_grows.
    - intros r s1 G1 [Hf Hg]. fwd G1. clear Hc. destruct r as [e|[n es]].
      + apply wp_binst. intros m Hm.
        destruct Hg as [Hg HL]. assert (own s1 c (ti_inst x)) as Ho by (exists t; eauto).
        apply wp_seq; [eapply wp_append_error_data; [done..|intros y _; by right; right; right]|].
        intros [] s2 G2. fwd G2. by apply wp_handle_global_error.
      + eapply (wp_seq' _ _ _ (fun (b : bool) s' => s' = s1 /\ (b = true ->
          exists y, s_insts s1 !! ti_inst x = Some y /\
            forall id t x, i_tasks y !! id = Some t -> s_tis s1 !! t = Some x -> TDone <= ti_status x))).
        { destruct n.
          - eapply wp_weaken; [apply wp_flow_task_done|]. intros b s' _ [-> Hb]. eauto.
          - apply wp_ret. by split. }
        intros b s2 G2 (-> & Hb). clear G2. apply wp_binst. intros y Hy.
        apply wp_seq.
        { destruct (b || i_force y) eqn:Eb.
          - apply (wp_complete_flow _ y); [done|done|]. destruct b.
            + right. destruct Hb as (y' & Hy' & HD); [done|]. by simplify_eq.
            + by left.
          - apply wp_seq; [apply Hent; [done|]|intros; by apply wp_ret].
            destruct n; [|done]. subst es. eapply good_nil. by apply inst_is_intro. }
        intros [] s3 G3. fwd G3. by eapply wp_release_task.
  Qed.

  Lemma wp_enter_tasks n : ent_ok (enter_tasks E n).
  Proof.
    induction n as [|n IH]; intros i es s Ha Hg; simpl; apply wp_with_lock; intros s' G;
      (apply wp_enter_list; [|by eapply act_inst_grows|by eapply good_grows]).
    - intros. apply wp_fuel.
    - intros t s2 tk Ha2 Ht2 Hx2. eapply wp_handle_task_done; eauto.
  Qed.
  Lemma wp_enter_top : ent_ok (enter_top E).
  Proof. intros i es s Ha Hg. apply wp_binst. intros y Hy. by apply wp_enter_tasks. Qed.

  Lemma wp_task_done t i tk s : c = Some t -> ti_is s t i tk -> wp (task_done E t) s T.
  Proof.
    intros Hc Ht. eapply wp_handle_task_done; eauto using wp_enter_top.
    apply own_act. exists t. eauto.
  Qed.
  Lemma wp_global_error i e s : act_inst s c i -> wp (global_error E i e) s T.
  Proof. apply wp_handle_global_error, wp_enter_top. Qed.

  Lemma wp_handle_task_error t i tk e s :
    c = Some t -> ti_is s t i tk -> wp (handle_task_error E t e) s T.
  Proof.
    intros Hc Ht. assert (own s c i) as Ho by (exists t; eauto). pose proof (own_act _ _ _ Ho) as Ha.
    eapply wp_seq'.
    { apply wp_set_task_status. intros x Hx. eapply S_end; eauto. }
    intros [] s1 G1 (x & Hx & ->). destruct (ti_is_fun _ _ _ _ _ Ht Hx) as [<- <-].
    assert (closing (p_tstat t x TFailed s) c t (ti_inst x) (t_id (ti_task x))) as Hf.
    { split; [|by left]. exists TFailed. split; [by right; right|]. apply logged_tstat. }
    fwd G1. clear Hx. set (s1 := p_tstat t x TFailed s) in *. clearbody s1. clear G1.
    apply wp_seq; [by eapply wp_add_activity_coverage|]. intros [] s2 G2. fwd G2.
    eapply wp_seq'; [by eapply wp_beh_error|]. intros r s3 G3 Hr. fwd G3.
    apply wp_bti. intros x3 Hx3. destruct (ti_is_fun _ _ _ _ _ Ht Hx3) as [Hi Htk]. rewrite Hi, Htk.
    destruct r as [[] es]; simpl.
    - apply wp_seq; [by eapply wp_set_task_error|]. intros [] s4 G4. specialize (Hr eq_refl). simpl in Hr.
      apply (good_grows _ _ _ _ G4) in Hr. clear Hx3. fwd G4.
      apply wp_seq.
      { destruct es; [by apply wp_ret|]. apply wp_seq; [by apply wp_enter_top|]. intros. by apply wp_ret. }
      intros [] s5 G5. fwd G5. by eapply wp_release_task.
    - apply wp_binst. intros y Hy. destruct (i_handling y) eqn:Ehd.
      + eapply wp_seq'; [by apply wp_ffailed|]. intros [] s4 G4 [HL Hr4]. clear Hx3. fwd G4.
        destruct (ti_inst x =? 0)%nat eqn:Ei; [eapply wp_append_error_data; [done..|intros y' _; by right; left]|]. apply Nat.eqb_neq in Ei.
        eapply wp_bind; [by eapply wp_record_state|]. intros [] s5 St5 G5 _. fwd G5. apply (asteps_lately _ _ _ _ _ St5) in HL.
        destruct (i_host y) as [ht|] eqn:Eh; [|by apply wp_ret].
        eapply wp_bind.
        { apply wp_step; [|instantiate (1 := T); done]. intros _. destruct Hy as (y4 & ? & ? & ?). by eapply (S_hosterr E c s5 (ti_inst x) y4). }
        intros [] s6 St6 G6 _. fwd G6. apply (asteps_lately _ _ _ _ _ St6) in HL.
        eapply wp_host_sched; eauto.
      + apply wp_seq; [eapply wp_append_error_data; [done..|intros y' Hy'; left; congruence]|]. intros [] s4 G4. clear Hx3. fwd G4.
        by apply wp_global_error.
  Qed.

  (** ** Starting a flow *)
  Lemma wp_parent_info i s : wp (parent_info E i) s (fun _ s' => s' = s).
  Proof.
    unfold parent_info, host_of. intros F. revert F.
    change (wp (h <- (x <- get_inst i; ret (i_host x));
      match h with
      | None => ret ("", "")
      | Some ht => x <- get_ti ht; y <- get_inst (ti_inst x); ret (d_name (i_def y), inst_id E (ti_inst x))
      end) s (fun _ s' => s' = s)).
    eapply (wp_seq' _ _ _ (fun _ s' => s' = s)).
    - apply wp_binst. intros. by apply wp_ret.
    - intros h s1 _ ->. destruct h; [|by apply wp_ret]. apply wp_bti. intros x Hx.
      apply wp_binst. intros y Hy. by apply wp_ret.
  Qed.

  Lemma wp_start_instance i attrs s : nstarted s c i -> wp (start_instance E i attrs) s T.
  Proof.
    intros Hn. apply wp_binst. intros y Hy.
    eapply wp_seq'; [apply wp_parent_info|]. intros h s0 _ ->.
    apply inst_is_intro in Hy as Hi.
    eapply wp_seq'; [by apply wp_set_attrs_new|]. intros [] s1 G1 Hn1. fwd G1.
    eapply (wp_seq' _ _ _ (fun _ s' => nstarted s' c i)).
    { destruct (d_md (i_def y)); [by apply wp_set_attrs_new|by apply wp_ret]. }
    intros [] s2 G2 Hn2. fwd G2.
    eapply wp_seq'; [by apply wp_set_attrs_new|]. intros [] s3 G3 Hn3. fwd G3.
    eapply wp_seq'.
    { apply wp_set_flow_status. intros y' Hy'. destruct Hn3 as (y3 & Hy3 & ? & ?). simplify_eq.
      by eapply S_factive. }
    intros [] s4 G4 (l1 & l2 & Hl & _). apply nstarted_inst in Hn3 as [d3 Hn3]. fwd G4.
    assert (act_inst s4 c i) by (right; exists d3; split; [done|]; unfold logged; rewrite Hl; set_solver).
    apply wp_seq; [|intros; by apply wp_ret]. apply wp_enter_top; [done|].
    exists (i_def y), (i_host y). split; [done|]. intros en Hen%start_entries_in.
    unfold all_tasks. set_solver.
  Qed.

  Lemma wp_start_subflow t uri ins s : c = Some t -> wp (start_subflow E t uri ins) s T.
  Proof.
    intros Hc. unfold start_subflow.
    eapply (wp_seq' _ _ _ (fun _ _ => True)); [apply wp_tick|]. intros n s1 G1 _.
    destruct (e_def E n uri) as [d| |e] eqn:Ed; [|by apply wp_ret|by apply wp_ret].
    eapply (wp_seq' _ _ _ (fun i s' => nstarted s' c i)).
    { apply wp_bget. apply wp_bti. intros x Hx.
      eapply (wp_exact E c _ (S (s_sfctr s1)) s1 (p_sub t x uri d s1)); [reflexivity| |].
      - intros (_ & B & _). eapply S_sub; eauto.
      - eexists. simpl. rewrite lookup_insert. done. }
    intros i s2 G2 Hn. apply wp_seq; [by apply wp_start_instance|]. intros [] s3 G3.
    apply wp_seq; [|intros; by apply wp_ret]. destruct (e_icpt E); [|by apply wp_ret].
    apply wp_bti. intros. apply wp_need_cov.
  Qed.

  (** ** Evaluating *)
  Lemma wp_reply i d e s : wp (reply i d e) s T.
  Proof.
    apply wp_binst. intros y Hy. destruct (i_handler y); [|by apply wp_ret].
    apply wp_seq; [by apply wp_upd_inst|]. intros. by apply wp_log.
  Qed.

  Lemma wp_run_act t a s : c = Some t -> (forall n, act_scope n a -> scoped E n) -> wp (run_act E t a) s T.
  Proof.
    intros Hc Hsc. revert s. induction a as [r|n v k IH|m k IH|n v k IH|d e k IH|d e k IH|uri ins k1 IH1 k2 IH2];
      intros s; simpl; apply wp_bti; intros x Hx; apply ti_is_intro in Hx as Ht.
    - by apply wp_ret.
    - apply wp_seq; [by apply wp_upd_ti|]. auto.
    - apply wp_seq; [by apply wp_upd_ti|]. auto.
    - apply wp_seq; [|intros; apply IH; intros; apply Hsc; by right]. eapply wp_set_value; [done..| |]; [left; apply Hsc; by left|intros -> y _; right; right; left; apply Hsc; by left].
    - apply wp_seq; [apply wp_reply|]. auto.
    - apply wp_seq; [|auto]. apply wp_seq; [|intros; by apply wp_log]. apply wp_step; [|done]. intros _. by eapply S_return.
    - apply wp_seq; [by apply wp_start_subflow|]. intros [] s' G; [apply IH1|apply IH2]; intros; apply Hsc; [by left|by right].
  Qed.

  Lemma wp_icpt_id t s :
    wp (icpt_id t) s (fun id s' => s' = s /\ exists x y, s_tis s !! t = Some x /\
       s_insts s !! ti_inst x = Some y /\ id = d_name (i_def y) +:+ "-" +:+ t_id (ti_task x)).
  Proof. apply wp_bti. intros x Hx. apply wp_binst. intros y Hy. apply wp_ret. eauto 10. Qed.

  Lemma wp_set_exec_status t z s : wp (set_exec_status E t z) s T.
  Proof.
    eapply wp_seq'; [apply wp_icpt_id|]. intros id s1 G [-> _].
    destruct (task_icpt E id); [by apply wp_log|by apply wp_ret].
  Qed.
  Lemma wp_apply_output_icpt t s : c = Some t -> wp (apply_output_icpt E t) s T.
  Proof.
    intros Hc. eapply wp_seq'; [apply wp_icpt_id|]. intros id s1 G [-> _].
    destruct (task_icpt E id) as [ic|]; [|by apply wp_ret].
    case_bool_decide; [by apply wp_ret|]. apply wp_bview; cbv beta zeta.
    destruct (tc_type ic =? 4).
    - case_match; [|by apply wp_ret]. apply wp_seq; [by apply wp_upd_ti|]. intros. by apply wp_ret.
    - destruct (tc_type ic =? 5); [|by apply wp_ret].
      destruct (tc_out ic !! "message") as [[]|]; try apply wp_panic. by apply wp_ret.
  Qed.
  Lemma wp_run_asserts t id mt k l s : wp (run_asserts E t id mt k l) s T.
  Proof.
    revert k s. induction l as [|a l IH]; intros k s; simpl; [by apply wp_ret|].
    destruct mt; simpl; [|apply wp_seq; [by apply wp_log|auto]].
    destruct (as_empty a); [apply wp_seq; [by apply wp_log|auto]|].
    destruct (as_type a =? 1); [|by apply wp_ret].
    apply wp_seq; [apply wp_ext|]. intros [b|e|m] s1 G.
    - apply wp_seq; [by apply wp_log|auto].
    - apply wp_seq; [by apply wp_log|auto].
    - apply wp_panic.
  Qed.
  Lemma wp_apply_asserts t ty s : wp (apply_asserts E t ty) s T.
  Proof.
    eapply wp_seq'; [apply wp_icpt_id|]. intros id s1 G [-> _].
    destruct (task_icpt E id) as [ic|]; [|by apply wp_ret]. apply wp_run_asserts.
  Qed.
  Lemma own_outputs_names id outs o : all_named_for E id (mapped_outputs id outs o).
  Proof.
    intros k v. unfold mapped_outputs. destruct outs as [ns|]; [|by rewrite lookup_empty].
    intros H%elem_of_list_to_map_2. apply elem_of_list_omap in H as (n & _ & H). destruct (o !! n); [|done]. injection H as <- _. unfold named_for. eauto 10.
  Qed.
  Lemma own_outputs_error id outs o : mapped_outputs id outs o !! "_E" = None.
  Proof.
    destruct (mapped_outputs id outs o !! "_E") as [v|] eqn:H; [|done]. revert H. unfold mapped_outputs. destruct outs as [ns|]; [|by rewrite lookup_empty].
    intros H%elem_of_list_to_map_2. apply elem_of_list_omap in H as (n & _ & H). destruct (o !! n); [|done]. by injection H.
  Qed.
  Lemma wp_apply_output_mapper t s : c = Some t -> wp (apply_output_mapper E t) s T.
  Proof.
    intros Hc. apply wp_bti. intros x Hx. apply ti_is_intro in Hx as Ht.
    destruct (t_act (ti_task x)); [|by apply wp_ret]. eapply wp_set_values; [done..|apply own_outputs_names|rewrite own_outputs_error; by intros []].
  Qed.
  Lemma wp_handle_accumulation t s : c = Some t -> wp (handle_accumulation E t) s T.
  Proof.
    intros Hc. apply wp_bti. intros x Hx. apply ti_is_intro in Hx as Ht.
    assert (own s c (ti_inst x)) by (exists t; eauto).
    apply wp_binst. intros y Hy. cbv zeta.
    destruct (i_attrs y !! ("_A." +:+ t_id (ti_task x))) as [v|].
    - destruct (e_toarr E v); [|by apply wp_ret].
      apply wp_seq; [eapply wp_set_value; [done..|unfold named_for; eauto 10|done]|]. intros. by apply wp_ret.
    - apply wp_seq; [eapply wp_set_value; [done..|unfold named_for; eauto 10|done]|]. intros. by apply wp_ret.
  Qed.
  Lemma wp_guard_err {A} (m : M (option err)) (k : M (err + A)) s :
    wp m s T -> (forall s', grows s s' -> wp k s' T) -> wp (guard_err m k) s T.
  Proof. intros Hm Hk. apply wp_seq; [done|]. intros [e|] s' G; [by apply wp_ret|auto]. Qed.

  Lemma wp_finish_activity t s : c = Some t -> wp (finish_activity E t) s T.
  Proof.
    intros Hc. apply wp_bti. intros x Hx.
    apply wp_guard_err; [apply wp_ext|]. intros s1 G1.
    apply wp_guard_err; [by apply wp_apply_output_icpt|]. intros s2 G2.
    apply wp_guard_err.
    { destruct (accumulates (ti_task x)).
      - apply wp_seq; [by apply wp_handle_accumulation|]. intros [e|] s3 G3; [by apply wp_ret|].
        apply wp_seq; [|intros; by apply wp_ret].
        destruct (acc_apply (ti_task x)); [by apply wp_apply_output_mapper|by apply wp_ret].
      - apply wp_seq; [by apply wp_apply_output_mapper|]. intros. by apply wp_ret. }
    intros s3 G3. apply wp_guard_err; [apply wp_apply_asserts|]. intros. by apply wp_ret.
  Qed.

  Lemma wp_call_activity t i tk d h s :
    c = Some t -> ti_is s t i tk -> inst_is s i d h -> not_intercepted E (d_name d) (t_id tk) ->
    wp (call_activity E t) s T.
  Proof.
    intros Hc Ht Hi Hni. apply wp_bti. intros x Hx.
    destruct (ti_is_fun _ _ _ _ _ Ht Hx) as [<- <-].
    assert (own s c (ti_inst x)) as Ho by (exists t; eauto).
    apply wp_seq.
    { apply wp_step; [|done]. intros _. destruct Hi as (y & Hy & <- & <-). by eapply S_act. }
    intros [] s1 G1. fwd G1.
    eapply wp_seq'; [apply wp_ext_of|]. intros a s2 G2 (j & w & ->). fwd G2.
    apply wp_seq; [apply wp_catch; [apply wp_run_act; [done|intros n Hn; exists j, w; by left]|intros; by apply wp_ret]|]. intros r s3 G3. fwd G3.
    destruct r as [| |e0|m].
    - apply wp_seq; [by apply wp_log|]. intros [] s4 G4.
      apply wp_seq; [by apply wp_set_exec_status|]. intros. by apply wp_ret.
    - apply wp_seq; [by apply wp_log|]. intros [] s4 G4.
      apply wp_seq; [by apply wp_set_exec_status|]. intros. by apply wp_ret.
    - apply wp_seq; [by apply wp_log|]. intros [] s4 G4. fwd G4.
      apply wp_seq; [by apply wp_set_exec_status|]. intros [] s5 G5. fwd G5.
      apply wp_binst. intros y Hy.
      apply wp_seq; [destruct (i_handling y) eqn:Ehd; [by apply wp_ret|eapply wp_set_value; [done..|unfold named_for; eauto 10|]]; intros _ y' Hy'; left; congruence|].
      intros [] s6 G6. fwd G6.
      apply wp_seq; [eapply wp_set_value; [done..|unfold named_for; eauto 10|done]|]. intros [] s7 G7.
      apply wp_seq; [|intros; by apply wp_ret]. apply wp_catch.
      + apply wp_seq; [apply wp_apply_asserts|]. intros. by apply wp_ret.
      + intros. by apply wp_ret.
    - apply wp_seq; [by apply wp_log|]. intros. apply wp_panic.
  Qed.

  Lemma wp_recover_eval t m s : wp m s T -> wp (recover_eval t m) s T.
  Proof.
    intros Hm. apply wp_catch; [done|]. intros e s1 _ G. apply wp_bti. intros. by apply wp_ret.
  Qed.

  Lemma wp_apply_input_mapper t s : c = Some t -> wp (apply_input_mapper E t) s T.
  Proof.
    intros Hc.
    apply wp_seq; [apply wp_ext|]. intros [m|e|m] s1 G.
    - apply wp_seq; [by apply wp_upd_ti|]. intros. by apply wp_ret.
    - apply wp_seq; [by apply wp_upd_ti|]. intros. by apply wp_ret.
    - apply wp_panic.
  Qed.
  Lemma wp_apply_input_icpt t s : c = Some t ->
    wp (apply_input_icpt E t) s (fun b s' => b = true ->
      forall x ic, s_tis s !! t = Some x -> task_icpt E (t_id (ti_task x)) = Some ic -> tc_skip ic = false).
  Proof.
    intros Hc. apply wp_bti. intros x Hx. destruct (task_icpt E _) as [ic|] eqn:Ei.
    - apply wp_bview; cbv beta zeta. apply wp_seq; [by apply wp_upd_ti|]. intros [] s1 G. apply wp_ret.
      intros Hb x' ic' Hx' Hic. rewrite Hx in Hx'. injection Hx' as <-. rewrite Ei in Hic.
      injection Hic as <-. by destruct (tc_skip ic).
    - apply wp_ret. intros _ x' ic' Hx' Hic. rewrite Hx in Hx'. injection Hx' as <-. congruence.
  Qed.

  Lemma wp_eval_activity t s : c = Some t -> wp (eval_activity E t) s T.
  Proof.
    intros Hc. apply wp_recover_eval. apply wp_bti. intros x Hx. apply ti_is_intro in Hx as Ht.
    destruct (t_act (ti_task x)) as [ac|]; [|apply wp_panic].
    apply wp_guard_err.
    { destruct (ac_inmap ac); [|by apply wp_ret]. apply wp_seq; [by apply wp_apply_input_mapper|].
      intros. by apply wp_ret. }
    intros s1 G1. fwd G1.
    eapply wp_seq'; [by apply wp_apply_input_icpt|]. intros ev s2 G2 Hev.
    destruct ev; [|by apply wp_finish_activity].
    assert (forall ic, task_icpt E (t_id (ti_task x)) = Some ic -> tc_skip ic = false) as Hsk.
    { destruct Ht as (x1 & Hx1 & _ & <-). eauto. }
    clear Hev. fwd G2.
    apply wp_guard_err; [apply wp_ext|]. intros s3 G3. fwd G3.
    unfold has_output_icpt.
    eapply (wp_seq' _ _ _ (fun (b : bool) s' => b = false -> exists i d h, inst_is s' i d h /\ i = ti_inst x /\
      forall ic, task_icpt E (d_name d +:+ "-" +:+ t_id (ti_task x)) = Some ic -> tc_skipexec ic = false)).
    { eapply wp_seq'; [apply wp_icpt_id|]. intros id s4 G4 (-> & x3 & y3 & Hx3 & Hy3 & ->).
      destruct (ti_is_fun _ _ _ _ _ Ht Hx3) as [Hi3 Htk3]. rewrite Hi3, Htk3 in *.
      apply wp_ret. intros Hb. exists (ti_inst x), (i_def y3), (i_host y3).
      split; [by apply inst_is_intro|]. split; [done|]. intros ic Hic. rewrite Hic in Hb. done. }
    intros mocked s4 G4 Hm. fwd G4. destruct mocked.
    - apply wp_seq; [apply wp_set_exec_status|]. intros. by apply wp_finish_activity.
    - destruct (Hm eq_refl) as (i & d & h & Hi & -> & Hmk).
      apply wp_seq; [by eapply wp_call_activity|]. intros [e|[]] s5 G5.
      + by apply wp_ret.
      + by apply wp_finish_activity.
      + by apply wp_ret.
  Qed.

  Lemma wp_post_eval_activity t s : c = Some t -> wp (post_eval_activity E t) s T.
  Proof.
    intros Hc. apply wp_recover_eval. apply wp_bti. intros x Hx. apply ti_is_intro in Hx as Ht.
    eapply wp_seq'; [apply wp_ext_of|]. intros p s1 G1 (j & w & Hp). fwd G1.
    apply wp_seq.
    { destruct p as [a|]; [|by apply wp_ret].
      apply wp_seq.
      { apply wp_step; [|done]. intros _. destruct Ht as (x1 & Hx1 & <- & <-). by eapply S_post. }
      intros [] s2 G2. apply wp_seq; [apply wp_run_act; [done|intros n Hn; exists j, w; right; eauto]|]. intros [| |e|m] s3 G3; try by apply wp_ret.
      apply wp_panic. }
    intros [e|done] s2 G2; [by apply wp_ret|].
    apply wp_bti. intros y Hy. destruct (ti_rerr y); [by apply wp_ret|].
    destruct done; [|by apply wp_ret].
    apply wp_guard_err; [by apply wp_apply_output_icpt|]. intros s3 G3.
    apply wp_guard_err.
    { destruct (accumulates (ti_task y)); [by apply wp_handle_accumulation|].
      apply wp_seq; [by apply wp_apply_output_mapper|]. intros. by apply wp_ret. }
    intros s4 G4. apply wp_guard_err; [apply wp_apply_asserts|]. intros. by apply wp_ret.
  Qed.

  (** ** Behaviours that evaluate *)
  Lemma wp_retry_value t n s : wp (retry_value E t n) s T.
  Proof.
    destruct n as [[src|z]|]; [|by apply wp_ret|by apply wp_ret].
    apply wp_seq; [apply wp_ext|]. intros [z|e|m] s1 G; [by apply wp_ret|by apply wp_ret|apply wp_panic].
  Qed.
  Lemma wp_retry_data t rc s : c = Some t -> wp (retry_data E t rc) s T.
  Proof.
    intros Hc.
    apply wp_bti. intros x Hx. destruct (ti_wd x !! "_retryOnErrorAttr") as [[]|]; try by apply wp_ret.
    apply wp_seq; [apply wp_retry_value|]. intros [e|z] s1 G1; [by apply wp_ret|].
    apply wp_seq; [apply wp_retry_value|]. intros [e|z2] s2 G2; [by apply wp_ret|].
    apply wp_seq; [by apply wp_set_wd|]. intros. by apply wp_ret.
  Qed.
  Lemma wp_retry_loop n t r s : c = Some t -> wp (retry_loop E n t r) s T.
  Proof.
    intros Hc. revert r s. induction n as [|n IH]; intros r s; simpl; apply wp_bti; intros x Hx.
    - destruct r as [e|b]; [|by apply wp_ret]. destruct (t_retry (ti_task x)) as [rc|]; [|by apply wp_ret].
      destruct (retriable e); [|by apply wp_ret].
      apply wp_seq; [by apply wp_retry_data|]. intros [e'|[cc iv]] s1 G1; [by apply wp_ret|].
      destruct (0 <? cc); [apply wp_fuel|by apply wp_ret].
    - destruct r as [e|b]; [|by apply wp_ret]. destruct (t_retry (ti_task x)) as [rc|]; [|by apply wp_ret].
      destruct (retriable e); [|by apply wp_ret].
      apply wp_seq; [by apply wp_retry_data|]. intros [e'|[cc iv]] s1 G1; [by apply wp_ret|].
      destruct (0 <? cc); [|by apply wp_ret].
      apply wp_seq; [by apply wp_set_wd|]. intros [] s2 G2.
      apply wp_seq; [by apply wp_eval_activity|]. intros. apply IH.
  Qed.
  Lemma wp_eval_retry t s : c = Some t -> wp (eval_retry E t) s T.
  Proof.
    intros Hc. apply wp_seq; [by apply wp_eval_activity|]. intros r s1 G1.
    apply wp_bti. intros x Hx. destruct r as [e|b]; [|by apply wp_ret].
    destruct (t_retry (ti_task x)) as [rc|]; [|by apply wp_ret].
    destruct (retriable e); [|by apply wp_ret].
    apply wp_seq; [by apply wp_retry_data|]. intros [e'|p] s2 G2; [by apply wp_ret|].
    apply wp_seq; [apply wp_bti; intros; by apply wp_ret|]. intros. by apply wp_retry_loop.
  Qed.
  Lemma wp_basic_eval t s : c = Some t -> wp (basic_eval E t) s T.
  Proof.
    intros Hc. apply wp_bti. intros x Hx. case_bool_decide; [by apply wp_ret|].
    apply wp_seq; [by apply wp_eval_retry|]. intros. by apply wp_ret.
  Qed.
  Lemma wp_basic_post t s : c = Some t -> wp (basic_post E t) s T.
  Proof.
    intros Hc. apply wp_seq; [by apply wp_post_eval_activity|]. intros r s1 G1.
    apply wp_bti. intros x Hx.
    destruct r as [[]|b]; destruct (t_retry (ti_task x)) as [rc|]; try by apply wp_ret.
    apply wp_seq; [by apply wp_retry_data|]. intros [e'|[cc iv]] s2 G2; [by apply wp_ret|].
    destruct (0 <? cc); [|by apply wp_ret].
    apply wp_seq; [by apply wp_set_wd|]. intros [] s3 G3.
    apply wp_seq; [by apply wp_eval_retry|]. intros. by apply wp_ret.
  Qed.
  Lemma wp_iter_step t it s : c = Some t -> wp (iter_step E t it) s T.
  Proof.
    intros Hc. unfold iter_step. destruct (iter_next it) as [it' o].
    apply wp_seq; [by apply wp_set_wd|]. intros [] s1 G1. destruct o as [[[k v] ix]|]; [|by apply wp_ret].
    apply wp_seq; [by apply wp_set_wd|]. intros [] s2 G2.
    apply wp_seq; [by apply wp_eval_retry|]. intros [e|[]] s3 G3.
    - apply wp_seq; [apply wp_end_status; auto|]. intros. by apply wp_ret.
    - by apply wp_ret.
    - apply wp_seq; [apply wp_end_status; auto|]. intros. by apply wp_ret.
  Qed.
  Lemma wp_iterate_on t lc s : wp (iterate_on E t lc) s T.
  Proof.
    unfold iterate_on. destruct (lc_iter lc) as [[src|v]|]; try by apply wp_ret.
    apply wp_seq; [apply wp_ext|]. intros [z|e|m] s1 G; [by apply wp_ret|by apply wp_ret|apply wp_panic].
  Qed.
  Lemma wp_iter_eval t s : c = Some t -> wp (iter_eval E t) s T.
  Proof.
    intros Hc. apply wp_bti. intros x Hx. case_bool_decide; [by apply wp_ret|].
    destruct (ti_wd x !! "_iterator") as [[]|]; try apply wp_panic; [by apply wp_iter_step|].
    destruct (t_loop (ti_task x)) as [lc|]; [|by apply wp_ret].
    apply wp_seq; [apply wp_iterate_on|]. intros [e|v] s1 G1; [by apply wp_ret|].
    assert (forall v, wp (match make_iter E v with
        | None => ret (inl (EOther ("iterator '" +:+ t_name (ti_task x) +:+ "' not properly configured")))
        | Some it =>
            set_wd t "_iterator" (WIter it) ;;
            set_wd t "iteration" (WIteration VNil VNil 0) ;;
            iter_step E t it
        end) s1 T) as HI.
    { intros v'. destruct (make_iter E v'); [|by apply wp_ret].
      apply wp_seq; [by apply wp_set_wd|]; intros [] s2 G2.
      apply wp_seq; [by apply wp_set_wd|]; intros [] s3 G3; by apply wp_iter_step. }
    destruct v; [by apply wp_ret|..]; apply HI.
  Qed.
  Lemma wp_iter_post t s : c = Some t -> wp (iter_post E t) s T.
  Proof.
    intros Hc. apply wp_seq; [by apply wp_post_eval_activity|]. intros [e|b] s1 G1.
    - apply wp_seq; [apply wp_end_status; auto|]. intros. by apply wp_ret.
    - apply wp_seq; [apply wp_end_status; auto|]. intros [] s2 G2. apply wp_bti. intros x Hx.
      destruct (ti_wd x !! "_iterator") as [[]|]; try apply wp_panic. by apply wp_ret.
  Qed.
  Lemma wp_init_index t s : c = Some t -> wp (init_index t) s T.
  Proof. intros Hc. apply wp_bti. intros x Hx. destruct (ti_wd x !! "iteration"); by apply wp_set_wd. Qed.
  Lemma wp_update_index t s : c = Some t -> wp (update_index t) s T.
  Proof.
    intros Hc. apply wp_bti. intros x Hx. destruct (ti_wd x !! "iteration") as [[]|]; try (by apply wp_set_wd); apply wp_panic.
  Qed.
  Lemma wp_check_cond t s : wp (check_cond E t) s T.
  Proof.
    apply wp_bti. intros x Hx. destruct (t_loop (ti_task x)) as [[[src|] ? ? ? ?]|]; try by apply wp_ret.
    apply wp_seq; [apply wp_ext|]. intros [v|e|m] s1 G; [|by apply wp_ret|apply wp_panic].
    apply wp_seq; [by apply wp_log|]. intros [] s2 G2.
    destruct v as [|[]| | | | |]; try apply wp_panic; by apply wp_ret.
  Qed.
  Lemma wp_cond_index t s : c = Some t -> wp (finally (check_cond E t) (update_index t)) s T.
  Proof. intros Hc. eapply wp_finally; [apply wp_check_cond|intros; by apply wp_update_index|done]. Qed.
  Lemma wp_dw_eval t s : c = Some t -> wp (dw_eval E t) s T.
  Proof.
    intros Hc. apply wp_bti. intros x Hx. case_bool_decide; [by apply wp_ret|].
    apply wp_seq; [by apply wp_init_index|]. intros [] s1 G1.
    apply wp_seq; [by apply wp_eval_retry|]. intros [e|[]] s3 G3.
    - apply wp_seq; [apply wp_end_status; auto|]. intros. by apply wp_ret.
    - by apply wp_cond_index.
    - apply wp_seq; [apply wp_end_status; auto|]. intros. by apply wp_ret.
  Qed.
  Lemma wp_dw_post t s : c = Some t -> wp (dw_post E t) s T.
  Proof.
    intros Hc. apply wp_seq; [by apply wp_init_index|]. intros [] s1 G1.
    apply wp_seq; [by apply wp_post_eval_activity|]. intros [e|b] s2 G2.
    - apply wp_seq; [apply wp_end_status; auto|]. intros. by apply wp_ret.
    - apply wp_seq; [apply wp_end_status; auto|]. intros. by apply wp_cond_index.
  Qed.

  Lemma wp_exec_body t s : c = Some t -> wp (exec_body E t) s T.
  Proof.
    intros Hc. apply wp_bti. intros x Hx. apply ti_is_intro in Hx as Ht.
    case_bool_decide; [by apply wp_ret|].
    apply wp_seq.
    { case_bool_decide; destruct (t_type (ti_task x)); simpl;
        auto using wp_basic_post, wp_iter_post, wp_dw_post, wp_basic_eval, wp_iter_eval, wp_dw_eval. }
    intros r s1 G1. fwd G1. destruct r as [e|[]].
    - by eapply wp_handle_task_error.
    - apply wp_end_status; auto.
    - by eapply wp_task_done.
    - apply wp_seq; [by apply wp_track_task|]. intros [] s2 G2. apply wp_schedule. auto.
    - apply wp_end_status; auto.
    - by eapply wp_task_done.
  Qed.
  Lemma wp_exec_recover t m s : c = Some t -> wp (exec_recover E t m) s T.
  Proof.
    intros Hc. apply wp_bti. intros x Hx. apply ti_is_intro in Hx as Ht.
    assert (own s c (ti_inst x)) as Ho by (exists t; eauto).
    apply wp_binst. intros y Hy. destruct (i_handling y) eqn:Ehd; [by apply wp_ret|].
    apply wp_seq; [eapply wp_append_error_data; [done..|intros y' Hy'; left; congruence]|]. intros [] s1 G1. fwd G1.
    apply wp_global_error. by apply own_act.
  Qed.
  Lemma wp_exec_task t s : c = Some t -> wp (exec_task E t) s T.
  Proof.
    intros Hc. apply wp_catch; [by apply wp_exec_body|]. intros. by apply wp_exec_recover.
  Qed.
End Engine.
