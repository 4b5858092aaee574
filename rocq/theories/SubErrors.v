(** Errors of expressions, and panics, in subflows. No Go counterpart (proof infrastructure). *)
From Verif Require Export Subflows Panics Handled.
Local Open Scope Z_scope.

Section Sub_errors.
  Local Set Default Proof Using "Type".
  Context (E : env) (d : defn) (uri : string).

  (** Without a handler: the subflow fails and its host is resumed. *)
  Lemma sub_told ent t e s i y x ht xh :
    recordable E -> i <> 0%nat -> s_insts s !! i = Some y -> s_tis s !! t = Some x -> ti_inst x = i -> i_handling y = false -> d_eh (i_def y) = None ->
    i_host y = Some ht -> s_tis s !! ht = Some xh ->
    tot (append_error_data E t e ;; handle_global_error E ent i e) s (fun _ s' => Subflows.resumed i ht e s s').
  Proof.
    intros Rc Hi0 Hy Hx Hi Hh Hd Hht Hxh.
    assert (forall y' x' l n, exists xh', s_tis (put i t y' x' l n s) !! ht = Some xh') as Hht'.
    { intros y' x' l n. destruct (decide (ht = t)) as [->|]; [rewrite put_ti|rewrite put_ti_ne by done]; eauto. }
    eapply (tot_loc i t); [done|done|]. apply loc_append; [done|]. intros m1 m2 _ _ n4.
    unfold handle_global_error.
    eapply tot_binst; [apply put_inst|]. cbn [set_i_attrs i_handling i_def]. rewrite Hh, Hd.
    eapply tot_loc; [apply put_inst|apply put_ti|]. apply loc_upd_inst. intros n5. rewrite put_put.
    eapply tot_loc; [apply put_inst|apply put_ti|]. apply loc_set_flow_status. intros n6. rewrite put_put.
    match goal with |- context [posted E FFailed ?y0] => destruct (posted_fields E FFailed y0) as (P1 & _ & P3 & _); set (y9 := posted E FFailed y0) in * end.
    cbn [i_host i_status set_i_status set_i_handling set_i_attrs set_i_links lmap] in P1, P3. rewrite Hht in P1. clearbody y9.
    destruct (Nat.eqb_spec i 0) as [|_]; [done|].
    set (s5 := put _ _ _ _ _ _ _). assert (exists xh', s_tis s5 !! ht = Some xh') as [xh' Hxh'] by apply Hht'.
    assert (s_insts s5 !! i = Some y9) as Hy9 by apply put_inst. assert (s_queue s5 = s_queue s) as Hq by done. clearbody s5.
    apply tot_bind. eapply tot_mono; [by apply tot_record|]. intros [] s' [l ->].
    apply tot_bind. unfold host_of. eapply tot_binst; [exact Hy9|]. apply tot_ret. rewrite P1.
    apply tot_bind, tot_upd_ti. unfold schedule_eval. eapply tot_bti; [cbn; by rewrite lookup_alter, Hxh'|].
    apply tot_bind, tot_get, tot_bind, tot_modify, tot_log. exists y9. eexists _, _.
    split_and!; [exact Hy9|exact P3|exact P1|cbn; by rewrite lookup_alter, Hxh'|done|]. cbn. by rewrite Hq.
  Qed.

  (** While the handler runs: the subflow fails, nobody is told. *)
  Lemma sub_untold ent t e s i y x :
    s_insts s !! i = Some y -> s_tis s !! t = Some x -> ti_inst x = i -> i_handling y = true ->
    tot (append_error_data E t e ;; handle_global_error E ent i e) s (fun _ s' => exists y' l n, i_status y' = FFailed /\ s' = put i t y' x l n s).
  Proof.
    intros Hy Hx Hi Hh. eapply tot_mono.
    { eapply (loc_run i t _ y x s (fun _ y' x' _ => i_status y' = FFailed /\ x' = x)); [|done|done].
      apply loc_bind, loc_append; [done|]. intros m1 m2 _ _. unfold handle_global_error. apply loc_binst.
      cbn [set_i_attrs i_handling]. rewrite Hh. apply loc_set_flow_status. split; [|done].
      match goal with |- i_status (posted E FFailed ?y0) = _ => exact (proj1 (proj2 (proj2 (posted_fields E FFailed y0)))) end. }
    intros [] s' (y' & x' & l & n & -> & H1 & ->). eauto 10.
  Qed.

  (** The handler of the subflow takes over. *)
  Definition sub_begins (h : ehandler) (i t : nat) (e : err) (s : st) (y0 y : inst) (x : tinst) (s' : st) : Prop :=
    exists s2 y2 x2,
      starts i y2 (start_tasks (eh_tasks h)) s2 s' /\
      i_status y2 = i_status y /\ i_handling y2 = true /\ i_tasks y2 = i_tasks y /\
      i_attrs y2 !! "_E" = Some (error_obj (t_id (ti_task x)) e) /\
      i_attrs y2 !! ("_E." +:+ t_id (ti_task x)) = Some (error_obj (t_id (ti_task x)) e) /\
      ti_inst x2 = i /\ ti_task x2 = ti_task x /\
      s_insts s2 = <[0%nat := set_i_tasks ∅ y0]> (<[i := y2]> (s_insts s)) /\ s_tis s2 = <[t := x2]> (s_tis s) /\ s_nti s2 = s_nti s /\
      s_queue s2 = s_queue s /\ s_wictr s2 = s_wictr s.

  Lemma sub_starts t e e' s i y y0 x h :
    i <> 0%nat -> s_insts s !! 0%nat = Some y0 ->
    s_insts s !! i = Some y -> s_tis s !! t = Some x -> ti_inst x = i -> settings_ok E -> e_conc E = false ->
    i_handling y = false -> d_eh (i_def y) = Some h -> NoDup (t_id <$> start_tasks (eh_tasks h)) ->
    (forall tk, tk ∈ start_tasks (eh_tasks h) -> t_act tk <> None /\ i_tasks y !! t_id tk = None) ->
    tot (append_error_data E t e ;; handle_global_error E (enter_top E) i e') s (fun _ s' => sub_begins h i t e s y0 y x s').
  Proof.
    intros Hi0 Hy0 Hy Hx Hi SO NC Hh Hd N Ha.
    eapply (tot_loc i t); [done|done|]. apply loc_append; [done|]. intros m1 m2 -> -> n4.
    unfold handle_global_error.
    eapply tot_binst; [apply put_inst|]. cbn [lmap set_i_links set_i_attrs i_handling i_def]. rewrite Hh, Hd.
    eapply tot_loc; [apply put_inst|apply put_ti|]. apply loc_upd_inst. intros n5. rewrite put_put.
    set (y2 := set_i_handling true _). set (s2 := put _ _ _ _ _ _ s).
    assert (H0 : s_insts s2 !! 0%nat = Some y0) by (unfold s2; rewrite put_inst_ne; done).
    apply tot_bind. eapply (tot_eq _ _ tt (p_log (EvTasksClear 0) (p_inst 0 (set_i_tasks ∅) s2))).
    { unfold clear_tasks, bind, get_inst, bind, get. rewrite H0. done. }
    set (s3 := p_log _ _). assert (H3 : s_insts s3 = <[0%nat := set_i_tasks ∅ y0]> (s_insts s2)) by exact (alter_at _ _ _ _ H0).
    assert (Hy3 : s_insts s3 !! i = Some y2) by (rewrite H3, lookup_insert_ne by done; apply put_inst).
    unfold enter_top. apply tot_bind. eapply tot_binst; [exact Hy3|]. cbn [enter_tasks]. unfold with_lock. rewrite NC.
    eapply tot_mono.
    { apply (enter_starts E NC SO _ i (start_tasks (eh_tasks h)) s3 y2); [exact Hy3| |done].
      intros tk Htk. split; [|by apply Ha].
      unfold start_tasks in Htk. apply elem_of_list_In, List.filter_In in Htk as [_ Htk]. destruct (t_from tk); done. }
    intros r s' [-> St]. apply tot_ret. exists s3, y2, x. split_and!; try done.
    all: unfold y2; cbn [i_attrs i_handling i_status set_i_tasks set_i_handling set_i_attrs ti_task set_ti_status].
    - rewrite lookup_union_r by (by rewrite lookup_singleton_ne). apply lookup_union_Some_l, lookup_singleton.
    - apply lookup_union_Some_l, lookup_singleton.
  Qed.

  Lemma sub_begun h i t e c s1 y0 y1 x1 s' : reach E d uri c s1 -> i <> 0%nat -> s_insts s1 !! 0%nat = Some y0 -> s_insts s1 !! i = Some y1 -> s_tis s1 !! t = Some x1 -> ti_inst x1 = i ->
    sub_begins h i t e s1 y0 y1 x1 s' ->
    (exists y', s_insts s' !! i = Some y' /\ i_status y' = i_status y1 /\ i_handling y' = true /\
      (forall id, is_Some (i_tasks y' !! id) <-> is_Some (i_tasks y1 !! id) \/ id ∈ t_id <$> start_tasks (eh_tasks h)) /\
      describes (ti_task x1) e (i_attrs y' !! "_E") /\ describes (ti_task x1) e (i_attrs y' !! ("_E." +:+ t_id (ti_task x1)))) /\
    (fun p => (p.1.2, p.2)) <$> pending s' =
      ((fun p => (p.1.2, p.2)) <$> pending s1) ++ ((fun tk => (i, t_id tk)) <$> start_tasks (eh_tasks h)) /\
    (forall j yj, s_insts s1 !! j = Some yj -> j <> i ->
       s_insts s' !! j = Some (if decide (j = 0%nat) then set_i_tasks ∅ yj else yj)) /\
    (forall u xu, s_tis s1 !! u = Some xu -> u <> t -> s_tis s' !! u = Some xu).
  Proof.
    intros R1 Hi0 Hy0 Hy1 Hx1 Hi (s2 & y2 & x2 & [(m & M1 & M2) P1 P2 _ P4 _] & S2 & H2 & T2 & A1 & A2 & X1 & X2 & Z1 & Z2 & Z3 & Z4 & Z5).
    pose proof (reach_fresh _ _ _ _ _ R1) as (F1 & _).
    assert (forall u z, s_tis s1 !! u = Some z -> (u < s_nti s1)%nat) as Hlt'.
    { intros u z Hu. destruct (decide (s_nti s1 <= u)%nat) as [Hle|]; [|lia]. by rewrite (F1 u Hle) in Hu. }
    split_and!.
    - exists (set_i_tasks m y2). split; [by rewrite M1, lookup_insert|]. split; [cbn; congruence|]. split; [done|]. split.
      + cbn. intros id. rewrite <- T2. split.
        * intros [u Hu]. apply M2 in Hu. destruct Hu as [?|(k & tk & Hk & <- & _)]; [left; eauto|]. right.
          apply elem_of_list_fmap_1. by eapply elem_of_list_lookup_2.
        * intros [[u Hu]|(tk & -> & Htk)%elem_of_list_fmap]; [exists u; apply M2; by left|].
          apply elem_of_list_lookup in Htk as [k Hk]. eexists. apply M2. right. eauto.
      + cbn. rewrite A1, A2. split; apply error_obj_describes.
    - unfold pending at 1. rewrite P4, omap_app, fmap_app, Z3, Z4, Z5. f_equal.
      + f_equal. unfold pending. destruct (inv_rdy _ _ _ _ _ R1) as (_ & I & _).
        assert (forall p, p ∈ s_queue s1 -> (fun x => (p.1, ti_inst x, t_id (ti_task x))) <$> s_tis s' !! p.2 =
          (fun x => (p.1, ti_inst x, t_id (ti_task x))) <$> s_tis s1 !! p.2) as Hp.
        { intros [w' u] Hp. cbn [fst snd]. specialize (I w' u Hp). destruct (s_tis s1 !! u) as [z|] eqn:Hu.
          - rewrite P1 by (rewrite Z3; eauto). rewrite Z2. destruct (decide (u = t)) as [->|].
            + rewrite lookup_insert. rewrite Hx1 in Hu. injection Hu as <-. cbn. by rewrite X1, X2, Hi.
            + by rewrite lookup_insert_ne, Hu.
          - destruct I as (? & ? & (z & Hz & _) & _). congruence. }
        revert Hp. clear. generalize (s_queue s1). intros l Hp. induction l as [|p l IH]; [done|]. cbn [omap list_omap].
        rewrite Hp by set_solver. destruct (_ <$> s_tis s1 !! p.2); [f_equal|]; apply IH; intros; apply Hp; set_solver.
      + apply imap_pending; [exact s1|]. intros k tk Hk. destruct (P2 k tk Hk) as (z & Hz & ? & ? & _). rewrite Z3 in Hz. eauto.
    - intros j yj Hj Hji. rewrite M1, lookup_insert_ne by done. rewrite Z1. case_decide as H0.
      + subst j. rewrite lookup_insert. congruence.
      + by rewrite !lookup_insert_ne by done.
    - intros u xu Hu Hne. rewrite P1 by (rewrite Z3; eauto). rewrite Z2. by rewrite lookup_insert_ne by done.
  Qed.

  (** *** Expressions *)

  (** What is needed about a finished evaluation of a task of a subflow. *)
  Lemma finished_sub s t x s1 y : cov_ok E -> running E d uri s -> evaluates E s t x (inr EvalDone) s1 -> ti_inst x <> 0%nat -> s_insts s !! ti_inst x = Some y ->
    exists y0 y1 x1, s_insts s !! 0%nat = Some y0 /\ s_insts s1 !! 0%nat = Some y0 /\ s_insts s1 !! ti_inst x = Some y1 /\
      i_host y1 = i_host y /\ i_handling y1 = i_handling y /\ i_status y1 = i_status y /\ i_def y1 = i_def y /\ i_tasks y1 = i_tasks y /\
      s_tis s1 !! t = Some x1 /\ ti_inst x1 = ti_inst x /\ ti_task x1 = ti_task x /\ ti_status x1 <> TSkipped /\
      (forall j yj, s_insts s !! j = Some yj -> j <> ti_inst x -> s_insts s1 !! j = Some yj) /\
      (forall u xu, s_tis s !! u = Some xu -> u <> t -> s_tis s1 !! u = Some xu).
  Proof.
    intros C R Ev Hi Hy.
    pose proof (evaluates_quiet _ _ _ _ _ _ _ _ R Ev) as (w & q & y0 & y01 & x1 & Hq & Hy0 & Hact' & Hdef & Q & Ho & So & Hy01 & _ & Hx1 & Hi1 & Ht1).
    destruct (Q Ho) as (_ & _ & _ & I1 & O1 & _). destruct (I1 (ti_inst x) y Hy) as (y1 & Hy1 & _ & SF).
    destruct (I1 0%nat y0 Hy0) as (y0' & Hy0' & Hsame & _). rewrite Hsame in Hy0' by congruence.
    destruct SF as (S1 & Sh & Ss & Sd & _ & St & _).
    exists y0, y1, x1. split_and!; try done.
    - eapply (evaluates_unskipped E C); [exact Ev|exact Ho|done].
    - intros j yj Hj Hji. destruct (I1 j yj Hj) as (yj' & Hj' & Hsj & _). rewrite Hsj in Hj' by congruence. done.
  Qed.

  Lemma sub_expression_told s t x s1 y ht : running E d uri s -> cov_ok E -> recordable E -> evaluates E s t x (inr EvalDone) s1 -> ti_inst x <> 0%nat ->
    (exists l, l ∈ t_to (ti_task x) /\ broken E l) ->
    s_insts s !! ti_inst x = Some y -> i_host y = Some ht -> i_handling y = false -> d_eh (i_def y) = None ->
    exists e, expression_error E (t_to (ti_task x)) e /\ Subflows.resumed (ti_inst x) ht e s1 (do_step E s).2.
  Proof.
    intros R C Rc Ev Hi Hb Hy Hht Hh Hd. pose proof (evaluates_reach E d uri _ _ _ _ _ R Ev) as R1.
    destruct (finished_sub s t x s1 y C R Ev Hi Hy) as (y0 & y1 & x1 & Hy0 & Hy01 & Hy1 & S1 & S2 & S3 & S4 & S5 & Hx1 & Hi1 & Ht1 & Hs1 & _).
    destruct (hosted E d uri C s1 (ti_inst x) y1 ht) as [xh Hxh]; [by right; eauto|done|congruence|].
    assert (tot (handle_task_done E (enter_top E) t) s1 (fun _ s' => exists e, expression_error E (t_to (ti_task x)) e /\ Subflows.resumed (ti_inst x) ht e s1 s')) as Hto.
    { eapply (tot_done_error E C); [exact Hy1|exact Hx1|done|done|by eauto|by rewrite Ht1|]. intros e m l n He.
      assert (exists xh', s_tis (put (ti_inst x) t (set_i_links m y1) (set_ti_status TDone x1) l n s1) !! ht = Some xh') as [xh' Hxh'].
      { destruct (decide (ht = t)) as [->|]; [rewrite put_ti|rewrite put_ti_ne by done]; eauto. }
      eapply tot_mono; [eapply sub_told; [exact Rc|exact Hi|apply put_inst|apply put_ti|exact Hi1|by rewrite <- Hh, <- S2|by rewrite <- Hd, <- S4|by rewrite <- Hht, <- S1|exact Hxh']|].
      intros [] s' (y' & xh2 & w & H). exists e. split; [by rewrite <- Ht1|]. exists y', xh2, w. exact H. }
    rewrite (evaluates_step _ _ _ _ _ _ Ev). cbn [conclude]. unfold task_done.
    by destruct (tot_run _ _ _ (tot_catch _ (exec_recover E t) _ _ Hto)) as (a & _ & H).
  Qed.

  Lemma sub_expression_host s t x s1 y ht s' xh r s2 : running E d uri s -> cov_ok E -> recordable E -> evaluates E s t x (inr EvalDone) s1 -> ti_inst x <> 0%nat ->
    (exists l, l ∈ t_to (ti_task x) /\ broken E l) ->
    s_insts s !! ti_inst x = Some y -> i_host y = Some ht -> i_handling y = false -> d_eh (i_def y) = None ->
    undisturbed E ht (do_step E s).2 s' -> evaluates E s' ht xh r s2 -> ti_status xh = TWaiting -> no_post E xh -> t_retry (ti_task xh) = None ->
    exists e, expression_error E (t_to (ti_task x)) e /\ r = inl e.
  Proof.
    intros R C Rc Ev Hi Hb Hy Hht Hh Hd U Ev2 Hw Hp Hr.
    destruct (sub_expression_told s t x s1 y ht R C Rc Ev Hi Hb Hy Hht Hh Hd) as (e & He & y' & xh0 & w & _ & _ & _ & Hx & Hre & _). exists e. split; [done|].
    destruct (undisturbed_results E d uri ht _ _ _ (running_step _ _ _ _ R) Hx U) as (xh' & Hxh' & _ & _ & _ & He').
    assert (Ev3 := Ev2). destruct Ev3 as (_ & Hxh & _). rewrite Hxh in Hxh'. injection Hxh' as <-.
    eapply resumed_error; [exact Ev2|done|done|congruence|done].
  Qed.

  Lemma sub_expression_untold s t x s1 y : running E d uri s -> cov_ok E -> evaluates E s t x (inr EvalDone) s1 -> ti_inst x <> 0%nat ->
    (exists l, l ∈ t_to (ti_task x) /\ broken E l) ->
    s_insts s !! ti_inst x = Some y -> i_handling y = true ->
    (exists y', s_insts (do_step E s).2 !! ti_inst x = Some y' /\ i_status y' = FFailed) /\
    s_queue (do_step E s).2 = s_queue s1 /\
    (forall j yj, s_insts s !! j = Some yj -> j <> ti_inst x -> s_insts (do_step E s).2 !! j = Some yj) /\
    (forall u xu, s_tis s !! u = Some xu -> u <> t -> s_tis (do_step E s).2 !! u = Some xu).
  Proof.
    intros R C Ev Hi Hb Hy Hh.
    destruct (finished_sub s t x s1 y C R Ev Hi Hy) as (y0 & y1 & x1 & Hy0 & Hy01 & Hy1 & S1 & S2 & S3 & S4 & S5 & Hx1 & Hi1 & Ht1 & Hs1 & HI & HT).
    assert (tot (handle_task_done E (enter_top E) t) s1 (fun _ s' => exists y' x' l n, i_status y' = FFailed /\ s' = put (ti_inst x) t y' x' l n s1)) as Hto.
    { eapply (tot_done_error E C); [exact Hy1|exact Hx1|done|done|by eauto|by rewrite Ht1|]. intros e m l n He.
      eapply tot_mono; [eapply sub_untold; [apply put_inst|apply put_ti|exact Hi1|by rewrite <- Hh, <- S2]|].
      intros [] s' (y' & l' & n' & H & ->). rewrite put_put. eauto 10. }
    rewrite (evaluates_step _ _ _ _ _ _ Ev). cbn [conclude]. unfold task_done.
    destruct (tot_run _ _ _ (tot_catch _ (exec_recover E t) _ _ Hto)) as (a & _ & y' & x' & l & n & Hf & ->). split_and!.
    - exists y'. by rewrite put_inst.
    - done.
    - intros j yj Hj Hne. rewrite put_inst_ne by done. by apply HI.
    - intros u xu Hu Hne. rewrite put_ti_ne by done. by apply HT.
  Qed.

  Lemma sub_expression_handled s t x s1 i y h : running E d uri s -> cov_ok E -> settings_ok E -> e_conc E = false ->
    evaluates E s t x (inr EvalDone) s1 -> ti_inst x = i -> i <> 0%nat -> (exists l, l ∈ t_to (ti_task x) /\ broken E l) ->
    s_insts s !! i = Some y -> built (i_def y) -> d_eh (i_def y) = Some h ->
    (forall tk, tk ∈ start_tasks (eh_tasks h) -> t_act tk <> None /\ i_tasks y !! t_id tk = None) -> i_handling y = false ->
    (exists y' e, s_insts (do_step E s).2 !! i = Some y' /\ i_status y' = i_status y /\ i_handling y' = true /\
      (forall id, is_Some (i_tasks y' !! id) <-> is_Some (i_tasks y !! id) \/ id ∈ t_id <$> start_tasks (eh_tasks h)) /\
      expression_error E (t_to (ti_task x)) e /\
      describes (ti_task x) e (i_attrs y' !! "_E") /\ describes (ti_task x) e (i_attrs y' !! ("_E." +:+ t_id (ti_task x)))) /\
    (fun p => (p.1.2, p.2)) <$> pending (do_step E s).2 =
      ((fun p => (p.1.2, p.2)) <$> pending s1) ++ ((fun tk => (i, t_id tk)) <$> start_tasks (eh_tasks h)) /\
    (forall j yj, s_insts s !! j = Some yj -> j <> i ->
       s_insts (do_step E s).2 !! j = Some (if decide (j = 0%nat) then set_i_tasks ∅ yj else yj)) /\
    (forall u xu, s_tis s !! u = Some xu -> u <> t -> s_tis (do_step E s).2 !! u = Some xu).
  Proof.
    intros R C SO NC Ev Hi Hi0 Hb Hy B Heh Hact Hhd. pose proof (evaluates_reach E d uri _ _ _ _ _ R Ev) as R1. subst i.
    destruct (finished_sub s t x s1 y C R Ev Hi0 Hy) as (y0 & y1 & x1 & Hy0 & Hy01 & Hy1 & S1 & S2 & S3 & S4 & S5 & Hx1 & Hi1 & Ht1 & Hs1 & HI & HT).
    assert (NoDup (t_id <$> start_tasks (eh_tasks h))) as ND by by apply (handler_starts (i_def y)).
    assert (tot (handle_task_done E (enter_top E) t) s1 (fun _ s' => exists e, expression_error E (t_to (ti_task x)) e /\
      sub_begins h (ti_inst x) t e s1 y0 y1 x1 s')) as Hto.
    { eapply (tot_done_error E C); [exact Hy1|exact Hx1|done|done|by eauto|by rewrite Ht1|]. intros e m l n He.
      eapply tot_mono; [eapply (sub_starts t e e _ (ti_inst x) (set_i_links m y1) y0); [done|by rewrite put_inst_ne|apply put_inst|apply put_ti|exact Hi1|done|done|by rewrite <- Hhd, <- S2|by rewrite <- Heh, <- S4|exact ND|cbn; rewrite S5; exact Hact]|].
      intros [] s' (s2 & y2 & x2 & H1 & H2 & H3 & H4 & H5 & H6 & H7 & H8 & H9 & H10 & H11 & H12 & H13). exists e. split; [by rewrite <- Ht1|].
      exists s2, y2, x2. split_and!; try done.
      - rewrite H9. unfold put. cbn. by rewrite insert_insert.
      - rewrite H10. unfold put. cbn. by rewrite insert_insert. }
    rewrite (evaluates_step _ _ _ _ _ _ Ev). cbn [conclude]. unfold task_done.
    destruct (tot_run _ _ _ (tot_catch _ (exec_recover E t) _ _ Hto)) as (a & _ & e & He & H).
    destruct (sub_begun h (ti_inst x) t e (Some t) s1 y0 y1 x1 _ R1 Hi0 Hy01 Hy1 Hx1 Hi1 H) as ((y' & G1 & G2 & G3 & G4 & G5 & G6) & G7 & G8 & G9).
    rewrite Ht1 in G5, G6. split_and!.
    - exists y', e. split_and!; try done; [congruence|]. intros id. by rewrite G4, S5.
    - exact G7.
    - intros j yj Hj Hne. apply G8; [by apply HI|done].
    - intros u xu Hu Hne. apply G9; [by apply HT|done].
  Qed.

  (** *** Panics *)

  Lemma panic_lost s t x m s1 y1 : running E d uri s -> panics E s t x m s1 -> s_insts s1 !! ti_inst x = Some y1 -> i_handling y1 = true ->
    do_step E s = (Ok true, s1).
  Proof.
    intros R P Hy1 Hh. destruct (panics_state E d uri _ _ _ _ _ R P) as (R1 & K1 & x1 & Hx1 & Hi1 & Ht1).
    rewrite (panics_step _ _ _ _ _ _ P). unfold exec_recover. unfold bind at 1. rewrite (eval_get_ti _ _ _ _ Hx1), Hi1, (eval_get_inst _ _ _ _ Hy1). cbv zeta. by rewrite Hh.
  Qed.

  Lemma panic_sub_handled s t x m s1 i y1 h : running E d uri s -> settings_ok E -> e_conc E = false ->
    panics E s t x m s1 -> ti_inst x = i -> i <> 0%nat -> s_insts s1 !! i = Some y1 -> built (i_def y1) -> d_eh (i_def y1) = Some h ->
    (forall tk, tk ∈ start_tasks (eh_tasks h) -> t_act tk <> None /\ i_tasks y1 !! t_id tk = None) -> i_handling y1 = false ->
    let e := EEval (t_name (ti_task x)) "unhandled" (panic_text x m) in
    (exists y', s_insts (do_step E s).2 !! i = Some y' /\ i_status y' = i_status y1 /\ i_handling y' = true /\
      (forall id, is_Some (i_tasks y' !! id) <-> is_Some (i_tasks y1 !! id) \/ id ∈ t_id <$> start_tasks (eh_tasks h)) /\
      describes (ti_task x) e (i_attrs y' !! "_E") /\ describes (ti_task x) e (i_attrs y' !! ("_E." +:+ t_id (ti_task x)))) /\
    (fun p => (p.1.2, p.2)) <$> pending (do_step E s).2 =
      ((fun p => (p.1.2, p.2)) <$> pending s1) ++ ((fun tk => (i, t_id tk)) <$> start_tasks (eh_tasks h)) /\
    (forall j yj, s_insts s1 !! j = Some yj -> j <> i ->
       s_insts (do_step E s).2 !! j = Some (if decide (j = 0%nat) then set_i_tasks ∅ yj else yj)) /\
    (forall u xu, s_tis s1 !! u = Some xu -> u <> t -> s_tis (do_step E s).2 !! u = Some xu).
  Proof.
    intros R SO NC P Hi Hi0 Hy1 B Hd Hact Hh e. destruct (panics_state E d uri _ _ _ _ _ R P) as (R1 & K1 & x1 & Hx1 & Hi1 & Ht1). subst i.
    destruct (inv_main _ _ _ _ _ R1) as (y0 & Hy0 & _).
    assert (NoDup (t_id <$> start_tasks (eh_tasks h))) as ND by by apply (handler_starts (i_def y1)).
    rewrite (panics_step _ _ _ _ _ _ P).
    assert (tot (exec_recover E t m) s1 (fun _ s' => sub_begins h (ti_inst x) t e s1 y0 y1 x1 s')) as Hto.
    { unfold exec_recover. eapply tot_bti; [exact Hx1|]. eapply tot_binst; [rewrite Hi1; exact Hy1|]. cbv zeta. rewrite Hh, Ht1, Hi1. fold (panic_text x m).
      unfold global_error. by apply (sub_starts t e). }
    destruct (tot_run _ _ _ Hto) as (a & Ha & H). unfold bind. destruct (exec_recover E t m s1) as [o s2]. cbn in Ha, H. rewrite Ha. cbn [snd].
    destruct (sub_begun h (ti_inst x) t e (Some t) s1 y0 y1 x1 _ R1 Hi0 Hy0 Hy1 Hx1 Hi1 H) as (G & G7 & G8 & G9).
    rewrite Ht1 in G. done.
  Qed.
End Sub_errors.
