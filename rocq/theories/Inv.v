(** Invariants of all reachable states, and the history of a reachable log (proofs; no Go
    counterpart). *)
From Verif Require Export Builder Reach.
Local Open Scope Z_scope.

(** ** Single steps of a run *)
Inductive rstep (E : env) : option nat -> st -> option nat -> st -> Prop :=
  | RS_a c s s' : astep E c s s' -> rstep E c s c s'
  | RS_step c s : rstep E c s c (set_s_step (S (s_step s)) s)
  | RS_pop c s w t q x y :
      s_queue s = (w, t) :: q -> s_tis s !! t = Some x ->
      s_insts s !! 0%nat = Some y -> i_status y = FActive ->
      rstep E c s (Some t) (p_log (EvQDel w (ti_inst x) (t_id (ti_task x))) (set_s_queue q s))
  | RS_set c s m y : s_insts s !! 0%nat = Some y -> rstep E c s c (p_set (e_track E) 0 m s)
  | RS_note c s e : caller_ev e -> rstep E c s c (p_log e s).

Lemma reach_rstep E d uri c s c' s' : reach E d uri c s -> rstep E c s c' s' -> reach E d uri c' s'.
Proof. intros H St. inversion St; subst; clear St; [by eapply R_astep|by eapply R_step|by eapply R_pop|by eapply R_set|by eapply R_note]. Qed.

(** Induction over a run with single steps. *)
Lemma reach_inv E d uri (P : option nat -> st -> Prop) :
  P None (init_st d uri) ->
  (forall c s c' s', reach E d uri c s -> fresh s -> P c s -> rstep E c s c' s' -> P c' s') ->
  forall c s, reach E d uri c s -> P c s.
Proof.
  intros H0 HS c s H.
  induction H as [|c s s' H IH St|c s H IH|c s w t q x y H IH Hq Hx Hy Ha|c s m y H IH Hy|c s e H IH He].
  - done.
  - eapply HS; eauto using reach_fresh. by constructor.
  - eapply HS; eauto using reach_fresh. by constructor.
  - eapply HS; eauto using reach_fresh. by econstructor.
  - eapply HS; eauto using reach_fresh. by econstructor.
  - eapply HS; eauto using reach_fresh. by constructor.
Qed.

(** ** What one step can change *)

(** Each step logs at most one event. *)
Lemma rstep_log E c s c' s' :
  rstep E c s c' s' -> s_log s' = s_log s \/ exists e, s_log s' = e :: s_log s.
Proof.
  intros St. destruct St as [c s s' St| | | |]; try by eauto. destruct St; simpl; eauto.
Qed.

Lemma ti_is_p_ti s t f t' i tk :
  (forall x, ti_inst (f x) = ti_inst x /\ ti_task (f x) = ti_task x) ->
  ti_is (p_ti t f s) t' i tk -> ti_is s t' i tk.
Proof.
  intros Hf (x & Hx & <- & <-). unfold p_ti in Hx. simpl in Hx. destruct (decide (t = t')) as [->|].
  - rewrite lookup_alter in Hx. destruct (s_tis s !! t') as [x'|] eqn:E; [|done].
    injection Hx as <-. destruct (Hf x'). exists x'. split_and!; congruence.
  - rewrite lookup_alter_ne in Hx by done. by exists x.
Qed.
Lemma inst_is_p_inst s i f j d h :
  (forall x, i_def (f x) = i_def x /\ i_host (f x) = i_host x) ->
  inst_is (p_inst i f s) j d h -> inst_is s j d h.
Proof.
  intros Hf (x & Hx & <- & <-). unfold p_inst in Hx. simpl in Hx. destruct (decide (i = j)) as [->|].
  - rewrite lookup_alter in Hx. destruct (s_insts s !! j) as [x'|] eqn:E; [|done].
    injection Hx as <-. destruct (Hf x'). exists x'. split_and!; congruence.
  - rewrite lookup_alter_ne in Hx by done. by exists x.
Qed.

Lemma astep_ti_is E c s s' t i tk :
  astep E c s s' -> ti_is s' t i tk ->
  ti_is s t i tk \/
  exists y, t = s_nti s /\ s_insts s !! i = Some y /\ tk ∈ all_tasks (i_def y) /\ act_inst s c i /\
    t_act tk <> None /\ i_tasks y !! t_id tk = None /\ s' = p_tnew i tk s.
Proof.
  intros St H. destruct St; try by left.
  all: try (left; by eapply ti_is_p_ti in H).
  - left. eapply ti_is_p_ti in H; [done|]. intros x. by destruct (H0 x) as (? & ? & _).
  - destruct H as (x & Hx & <- & <-). unfold p_tnew in Hx. cbn in Hx. rename tk0 into tk.
    destruct (decide (s_nti s = t)) as [<-|Hne].
    + rewrite lookup_insert in Hx. injection Hx as <-. right. eauto 10.
    + rewrite lookup_insert_ne in Hx by done. left. by exists x.
Qed.

Lemma astep_inst_is E c s s' i d h :
  astep E c s s' -> inst_is s' i d h ->
  inst_is s i d h \/
  exists t n uri x, i = S (s_sfctr s) /\ h = Some t /\ c = Some t /\ e_def E n uri = DOk d /\
    s_tis s !! t = Some x /\ s' = p_sub t x uri d s.
Proof.
  intros St H. destruct St; try by left.
  all: try (left; by eapply inst_is_p_inst in H).
  - left. eapply inst_is_p_inst in H; [done|]. intros y. destruct (H0 y) as (? & _ & _ & ? & _). done.
  - destruct H as (x' & Hx & <- & <-). unfold p_sub in Hx. cbn [s_insts p_log set_s_log set_s_insts] in Hx.
    destruct (decide (S (s_sfctr s) = i)) as [<-|Hne].
    + rewrite lookup_insert in Hx. injection Hx as <-. right. eauto 12.
    + rewrite lookup_insert_ne in Hx by done. left. by exists x'.
Qed.

Lemma astep_queue E c s s' :
  astep E c s s' ->
  (s_queue s' = s_queue s /\ s_wictr s' = s_wictr s /\ forall w i id, s_log s' <> EvQAdd w i id :: s_log s) \/
  exists t x, s' = p_sched t x s /\ s_tis s !! t = Some x /\
      (sched_new s c t x \/ c = Some t \/
      (exists i d, inst_is s i d (Some t) /\ act_inst s c i /\
                   (lately s (EvFlowStatus i FCompleted) \/ lately s (EvFlowStatus i FFailed)))).
Proof.
  assert (forall (e : event) l, l <> e :: l) as Hl.
  { intros e l H. apply (f_equal length) in H. simpl in H. lia. }
  intros St. destruct St; try (left; split_and!; [done|done|]; intros w' i' id' He; cbn in He;
    (injection He || idtac); try done; try (by eapply Hl); try congruence; fail).
  - left. split_and!; [done|done|]. intros w' i' id' He. cbn in He. injection He as ->. done.
  - right. eauto 10.
Qed.

(** ** Invariants *)
Section Inv.
  Context (E : env) (d : defn) (uri : string).
  Notation reach := (reach E d uri).

  Lemma rstep_grows c s c' s' : rstep E c s c' s' -> grows s s'.
  Proof.
    intros St. destruct St as [c s s' St| | | |].
    - by eapply astep_grows.
    - by apply grows_same.
    - eapply grows_trans; [|apply grows_log]. by apply grows_same.
    - apply grows_set.
    - apply grows_log.
  Qed.

  (** All definitions used come from the start or from outside. *)
  Lemma inv_defs (P : defn -> Prop) :
    P d -> (forall n u d', e_def E n u = DOk d' -> P d') ->
    forall c s, reach c s -> forall i d' h, inst_is s i d' h -> P d'.
  Proof.
    intros Hd HE. apply (reach_inv E d uri (fun c s => forall i d' h, inst_is s i d' h -> P d')).
    - intros i d' h (y & Hy & <- & _). cbn [s_insts init_st] in Hy. apply lookup_singleton_Some in Hy as [_ <-]. done.
    - intros c s c' s' _ _ IH St i d' h H. destruct St as [c s s' St| | | |].
      + eapply astep_inst_is in St as [?|(t & n & u & x & _ & _ & _ & Hdef & _)]; eauto.
      + by eapply IH.
      + by eapply IH.
      + apply inst_is_p_inst in H; [|done]. by eapply IH.
      + by eapply IH.
  Qed.

  (** Flow instance 0 runs [d]. *)
  Lemma inv_main c s : reach c s -> inst_is s 0 d None.
  Proof.
    revert c s. apply (reach_inv E d uri (fun c s => inst_is s 0 d None)).
    - eexists. done.
    - intros c s c' s' _ _ IH St. eapply inst_is_grows; [by eapply rstep_grows|done].
  Qed.

  (** Task instances belong to a flow instance and to a task of its definition. *)
  Lemma inv_task c s : reach c s ->
    forall t i tk, ti_is s t i tk -> exists d' h, inst_is s i d' h /\ tk ∈ all_tasks d' /\ t_act tk <> None.
  Proof.
    revert c s.
    apply (reach_inv E d uri (fun c s => forall t i tk, ti_is s t i tk ->
             exists d' h, inst_is s i d' h /\ tk ∈ all_tasks d' /\ t_act tk <> None)).
    - intros t i tk (x & Hx & _). cbn [s_tis init_st] in Hx. by rewrite lookup_empty in Hx.
    - intros c s c' s' _ _ IH St t i tk H. pose proof (rstep_grows _ _ _ _ St) as G.
      assert (ti_is s t i tk \/ exists y, s_insts s !! i = Some y /\ tk ∈ all_tasks (i_def y) /\ t_act tk <> None)
        as [H'|(y & Hy & Htk & Ha)].
      { destruct St as [c s s' St| | | |]; [|by left..].
        eapply astep_ti_is in St as [?|(y & _ & ? & ? & _ & ? & _)]; [by left| |done]. right. eauto. }
      + destruct (IH t i tk H') as (d' & h & Hi & Htk). exists d', h. split; [|done]. by eapply inst_is_grows.
      + exists (i_def y), (i_host y). split; [|done]. eapply inst_is_grows; [done|]. by eexists.
  Qed.

  (** The executing task instance, the queued ones and the hosts of subflows were ready. *)
  Definition rdy_all (c : option nat) (s : st) : Prop :=
    (forall t, c = Some t -> rdyT s t) /\
    (forall w t, (w, t) ∈ s_queue s -> rdyT s t) /\
    (forall i d' t, inst_is s i d' (Some t) -> rdyT s t).
  Lemma inv_rdy c s : reach c s -> rdy_all c s.
  Proof.
    revert c s. apply (reach_inv E d uri rdy_all).
    - split_and!; [done| |].
      + intros w t H. by apply elem_of_nil in H.
      + intros i d' t (y & Hy & _ & Hh). cbn [s_insts init_st] in Hy. apply lookup_singleton_Some in Hy as [_ <-]. done.
    - intros c s c' s' _ _ (I1 & I2 & I3) St. pose proof (rstep_grows _ _ _ _ St) as G.
      assert (forall t, rdyT s t -> rdyT s' t) as Hg by (intros; by eapply rdyT_grows).
      destruct St as [c s s' St| |c s w t q x y Hq Hx Hy Hst| |].
      + split_and!.
        * eauto.
        * intros w t H. apply astep_queue in St as [(Hq & _)|(t' & x & -> & Hx & Hs)].
          { rewrite Hq in H. eauto. }
          simpl in H. apply elem_of_app in H as [H|H]; [eauto|].
          apply elem_of_list_singleton in H as [= _ ->]. apply Hg.
          destruct Hs as [[? _]|[Hs|(i & d' & Hs & _)]]; eauto.
        * intros i d' t H. eapply astep_inst_is in H as [H|(t' & n & u & x & _ & H1 & H2 & _)]; [|  |done].
          { eauto. }
          injection H1 as <-. eauto.
      + split_and!; eauto.
      + split_and!.
        * intros t' [= <-]. apply Hg. eapply I2. rewrite Hq. apply elem_of_list_here.
        * intros w' t' H. apply Hg. eapply I2. rewrite Hq. apply elem_of_list_further. done.
        * intros i d' t' H. apply Hg. by eapply I3.
      + split_and!; eauto. intros i d' t Hi. apply inst_is_p_inst in Hi; [|done]. eauto.
      + split_and!; eauto.
  Qed.

  (** ** History *)

  (** Every logged event but the first one was logged by a step between reachable states. *)
  Lemma reach_history c s l1 e l2 :
    reach c s -> s_log s = l1 ++ e :: l2 -> l2 <> [] ->
    exists c0 s0 c1 s1, reach c0 s0 /\ rstep E c0 s0 c1 s1 /\ s_log s0 = l2 /\ s_log s1 = e :: l2 /\
      grows s1 s.
  Proof.
    intros H. revert l1. revert c s H.
    apply (reach_inv E d uri (fun c s => forall l1, s_log s = l1 ++ e :: l2 -> l2 <> [] ->
      exists c0 s0 c1 s1, reach c0 s0 /\ rstep E c0 s0 c1 s1 /\ s_log s0 = l2 /\ s_log s1 = e :: l2 /\
      grows s1 s)).
    - intros l1 Hl Hne. simpl in Hl. destruct l1 as [|e' l1]; [by injection Hl as _ <-|].
      injection Hl as _ Hl. by destruct l1.
    - intros c s c' s' HR _ IH St l1 Hl Hne. pose proof (rstep_grows _ _ _ _ St) as G.
      destruct (rstep_log _ _ _ _ _ St) as [Hs|[e' Hs]].
      + rewrite Hs in Hl. destruct (IH l1 Hl Hne) as (c0 & s0 & c1 & s1 & ? & ? & ? & ? & ?).
        exists c0, s0, c1, s1. split_and!; eauto using grows_trans.
      + rewrite Hs in Hl. destruct l1 as [|e1 l1].
        * injection Hl as -> Hl. exists c, s, c', s'. rewrite Hs, Hl. split_and!; eauto using grows_refl.
        * injection Hl as -> Hl. destruct (IH l1 Hl Hne) as (c0 & s0 & c1 & s1 & ? & ? & ? & ? & ?).
          exists c0, s0, c1, s1. split_and!; eauto using grows_trans.
  Qed.

  Lemma init_in c s : reach c s -> exists l, s_log s = l ++ [EvFlowCreated].
  Proof.
    revert c s. apply (reach_inv E d uri (fun c s => exists l, s_log s = l ++ [EvFlowCreated])).
    - by exists [].
    - intros c s c' s' _ _ [l Hl] St. destruct (rstep_grows _ _ _ _ St) as (_ & _ & l' & Hl').
      exists (l' ++ l). by rewrite Hl', Hl, app_assoc.
  Qed.
  Lemma history c s e l1 l2 :
    reach c s -> s_log s = l1 ++ e :: l2 -> e <> EvFlowCreated ->
    exists c0 s0 c1 s1, reach c0 s0 /\ rstep E c0 s0 c1 s1 /\ s_log s0 = l2 /\ s_log s1 = e :: l2 /\
      grows s1 s.
  Proof.
    intros H Hl Hne. eapply reach_history; [done|done|]. intros ->.
    apply init_in in H as [l H]. rewrite H in Hl. apply app_inj_tail in Hl as [_ ?]. congruence.
  Qed.
End Inv.
