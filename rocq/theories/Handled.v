(** The error handler of a subflow. *)
From Verif Require Export Errors.
Local Open Scope Z_scope.

Section Sub_handler.
  Local Set Default Proof Using "Type*".
  Context (E : env) (d : defn) (uri : string).

  (** The error reaches the error handler of subflow [i]. *)
  Lemma sub_handled t e s i y y0 x h :
    i <> 0%nat -> s_insts s !! 0%nat = Some y0 ->
    s_insts s !! i = Some y -> s_tis s !! t = Some x -> (t < s_nti s)%nat -> ti_inst x = i -> cov_ok E -> settings_ok E -> e_conc E = false ->
    no_error_link (ti_task x) -> i_handling y = false -> d_eh (i_def y) = Some h -> NoDup (t_id <$> start_tasks (eh_tasks h)) ->
    (forall tk, tk ∈ start_tasks (eh_tasks h) -> t_act tk <> None /\ i_tasks y !! t_id tk = None) ->
    tot (handle_task_error E t e) s (fun _ s' => exists s2 y2 x2,
      starts i y2 (start_tasks (eh_tasks h)) s2 s' /\
      i_status y2 = i_status y /\ i_handling y2 = true /\ i_tasks y2 = i_tasks y /\
      i_attrs y2 !! "_E" = Some (error_obj (t_id (ti_task x)) e) /\
      i_attrs y2 !! ("_E." +:+ t_id (ti_task x)) = Some (error_obj (t_id (ti_task x)) e) /\
      ti_inst x2 = i /\ ti_task x2 = ti_task x /\
      s_insts s2 = <[0%nat := set_i_tasks ∅ y0]> (<[i := y2]> (s_insts s)) /\ s_tis s2 = <[t := x2]> (s_tis s) /\ s_nti s2 = s_nti s /\
      s_queue s2 = s_queue s /\ s_wictr s2 = s_wictr s).
  Proof.
    intros Hi0 Hy0 Hy Hx Ht Hi C SO NC Hn Hh Hd N Ha. unfold handle_task_error.
    eapply tot_loc; [done|done|]. apply loc_set_task_status. intros n1.
    eapply tot_loc; [apply put_inst|apply put_ti|]. apply loc_coverage; [done..|]. intros ls ev _ _ n2. rewrite put_put.
    eapply tot_loc; [apply put_inst|apply put_ti|]. apply (loc_no_error _ _ _ C); [done|done|]. intros ev' _ n3. rewrite put_put.
    eapply tot_bti; [apply put_ti|]. cbv zeta. cbn [fst snd ti_inst set_ti_status]. rewrite Hi.
    eapply tot_binst; [apply put_inst|]. cbn [lmap set_i_links i_handling]. rewrite Hh.
    eapply tot_loc; [apply put_inst|apply put_ti|]. apply loc_append_error; [done..|]. intros m1 m2 -> -> n4. rewrite put_put.
    unfold handle_global_error.
    eapply tot_binst; [apply put_inst|]. cbn [lmap set_i_links set_i_attrs i_handling i_def]. rewrite Hh, Hd.
    eapply tot_loc; [apply put_inst|apply put_ti|]. apply loc_upd_inst. intros n5. rewrite put_put.
    set (y2 := set_i_handling true _). set (x2 := set_ti_status _ _). set (s2 := put _ _ _ _ _ _ s).
    assert (H0 : s_insts s2 !! 0%nat = Some y0) by (unfold s2; rewrite put_inst_ne; done).
    apply tot_bind. eapply (tot_eq _ _ tt (p_log (EvTasksClear 0) (p_inst 0 (set_i_tasks ∅) s2))).
    { unfold clear_tasks, bind, get_inst, bind, get. rewrite H0. done. }
    set (s3 := p_log _ _). assert (H3 : s_insts s3 = <[0%nat := set_i_tasks ∅ y0]> (s_insts s2)) by exact (alter_at _ _ _ _ H0).
    assert (Hy3 : s_insts s3 !! i = Some y2) by (rewrite H3, lookup_insert_ne by done; apply put_inst).
    unfold enter_top. apply tot_bind. eapply tot_binst; [exact Hy3|]. cbn [enter_tasks]. unfold with_lock. rewrite NC.
    eapply tot_mono.
    { apply (enter_starts E NC SO _ i (start_tasks (eh_tasks h)) s3 y2); [exact Hy3| |done].
      intros tk Htk. split; [|by apply Ha].
      unfold start_tasks in Htk. apply elem_of_list_In, List.filter_In in Htk as [_ Htk]. destruct (t_from tk); done. }
    intros r s' [-> St]. apply tot_ret. exists s3, y2, x2. split_and!; try done.
    all: unfold y2; cbn [i_attrs i_handling i_status set_i_tasks set_i_handling set_i_attrs ti_task set_ti_status].
    - rewrite lookup_union_r by (by rewrite lookup_singleton_ne). apply lookup_union_Some_l, lookup_singleton.
    - apply lookup_union_Some_l, lookup_singleton.
  Qed.

  Lemma sub_takes_over s t x e s1 i y h :
    running E d uri s -> cov_ok E -> settings_ok E -> e_conc E = false ->
    evaluates E s t x (inl e) s1 -> ti_inst x = i -> i <> 0%nat -> s_insts s !! i = Some y -> built (i_def y) -> d_eh (i_def y) = Some h ->
    (forall tk, tk ∈ start_tasks (eh_tasks h) -> t_act tk <> None /\ i_tasks y !! t_id tk = None) ->
    no_error_link (ti_task x) -> i_handling y = false ->
    (exists y', s_insts (do_step E s).2 !! i = Some y' /\ i_status y' = i_status y /\ i_handling y' = true /\
      (forall id, is_Some (i_tasks y' !! id) <-> is_Some (i_tasks y !! id) \/ id ∈ t_id <$> start_tasks (eh_tasks h)) /\
      describes (ti_task x) e (i_attrs y' !! "_E") /\ describes (ti_task x) e (i_attrs y' !! ("_E." +:+ t_id (ti_task x)))) /\
    (fun p => (p.1.2, p.2)) <$> pending (do_step E s).2 =
      ((fun p => (p.1.2, p.2)) <$> pending s1) ++ ((fun tk => (i, t_id tk)) <$> start_tasks (eh_tasks h)) /\
    (forall j yj, s_insts s !! j = Some yj -> j <> i ->
       s_insts (do_step E s).2 !! j = Some (if decide (j = 0%nat) then set_i_tasks ∅ yj else yj)) /\
    (forall u xu, s_tis s !! u = Some xu -> u <> t -> s_tis (do_step E s).2 !! u = Some xu).
  Proof.
    intros R C SO NC Ev Hi Hi0 Hy B Heh Hact Hn Hhd.
    pose proof (evaluates_reach _ _ _ _ _ _ _ _ R Ev) as R1.
    pose proof (evaluates_quiet _ _ _ _ _ _ _ _ R Ev) as (w & q & y0 & y01 & x1 & Hq & Hy0 & Hact' & Hdef & Q & Ho & So & Hy01 & _ & Hx1 & Hi1 & Ht1).
    destruct (Q Ho) as (_ & _ & _ & I1 & O1 & _). destruct (I1 i y Hy) as (y1 & Hy1 & _ & SF).
    destruct (I1 0%nat y0 Hy0) as (y0' & Hy0' & Hsame & _). rewrite Hsame in Hy0' by congruence.
    destruct SF as (_ & Sh & Ss & Sd & _ & St & _).
    pose proof (reach_fresh _ _ _ _ _ R1) as (F1 & _).
    assert (forall u z, s_tis s1 !! u = Some z -> (u < s_nti s1)%nat) as Hlt'.
    { intros u z Hu. destruct (decide (s_nti s1 <= u)%nat) as [Hle|]; [|lia]. by rewrite (F1 u Hle) in Hu. }
    assert (NoDup (t_id <$> start_tasks (eh_tasks h))) as ND by by apply (handler_starts (i_def y)).
    pose proof (sub_handled t e s1 i y1 y0 x1 h Hi0 Hy0' Hy1 Hx1 (Hlt' _ _ Hx1) ltac:(congruence) C SO NC ltac:(by rewrite Ht1) ltac:(congruence) ltac:(congruence)
      ND ltac:(by rewrite St)) as Hto.
    rewrite (evaluates_step _ _ _ _ _ _ Ev). cbn [conclude].
    destruct (tot_run _ _ _ (tot_catch _ (exec_recover E t) _ _ Hto)) as (a & _ & H). revert H. generalize (catch (handle_task_error E t e) (exec_recover E t) s1).2.
    intros s' (s2 & y2 & x2 & [(m & M1 & M2) P1 P2 _ P4 _] & S2 & H2 & T2 & A1 & A2 & X1 & X2 & Z1 & Z2 & Z3 & Z4 & Z5).
    split_and!.
    - exists (set_i_tasks m y2). split; [by rewrite M1, lookup_insert|]. split; [cbn; congruence|]. split; [done|]. split.
      + cbn. intros id. rewrite <- St, <- T2. split.
        * intros [u Hu]. apply M2 in Hu. destruct Hu as [?|(k & tk & Hk & <- & _)]; [left; eauto|]. right.
          apply elem_of_list_fmap_1. by eapply elem_of_list_lookup_2.
        * intros [[u Hu]|(tk & -> & Htk)%elem_of_list_fmap]; [exists u; apply M2; by left|].
          apply elem_of_list_lookup in Htk as [k Hk]. eexists. apply M2. right. eauto.
      + cbn. rewrite <- Ht1, A1, A2. split; apply error_obj_describes.
    - unfold pending at 1. rewrite P4, omap_app, fmap_app, Z3, Z4, Z5. f_equal.
      + f_equal. unfold pending. destruct (inv_rdy _ _ _ _ _ R1) as (_ & I & _).
        assert (forall p, p ∈ s_queue s1 -> (fun x => (p.1, ti_inst x, t_id (ti_task x))) <$> s_tis s' !! p.2 =
          (fun x => (p.1, ti_inst x, t_id (ti_task x))) <$> s_tis s1 !! p.2) as Hp.
        { intros [w' u] Hp. cbn [fst snd]. specialize (I w' u Hp). destruct (s_tis s1 !! u) as [z|] eqn:Hu.
          - rewrite P1 by (rewrite Z3; eauto). rewrite Z2. destruct (decide (u = t)) as [->|].
            + rewrite lookup_insert. rewrite Hx1 in Hu. injection Hu as <-. cbn. by rewrite X1, X2, Hi1, Hi.
            + by rewrite lookup_insert_ne, Hu.
          - destruct I as (? & ? & (z & Hz & _) & _). congruence. }
        revert Hp. clear. generalize (s_queue s1). intros l Hp. induction l as [|p l IH]; [done|]. cbn [omap list_omap].
        rewrite Hp by set_solver. destruct (_ <$> s_tis s1 !! p.2); [f_equal|]; apply IH; intros; apply Hp; set_solver.
      + apply imap_pending; [exact s1|]. intros k tk Hk. destruct (P2 k tk Hk) as (z & Hz & ? & ? & _). rewrite Z3 in Hz. eauto.
    - intros j yj Hj Hji. destruct (I1 j yj Hj) as (yj' & Hj' & Hsj & _). rewrite Hsj in Hj' by congruence.
      rewrite M1, lookup_insert_ne by done. rewrite Z1. case_decide as H0.
      + subst j. rewrite lookup_insert. f_equal. f_equal. change (s_insts (popped w t x q s)) with (s_insts s) in *. congruence.
      + by rewrite !lookup_insert_ne by done.
    - intros u xu Hu Hne. pose proof (O1 u xu Hu Hne) as Hu1. rewrite P1 by (rewrite Z3; eauto). rewrite Z2. by rewrite lookup_insert_ne by done.
  Qed.
End Sub_handler.
