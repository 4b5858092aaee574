(** How a panic is handled. No Go counterpart (proof infrastructure). *)
From Verif Require Export Calm Fails.
Local Open Scope Z_scope.

Section Panics.
  Context (E : env) (d : defn) (uri : string).

  Lemma loc_append i t e y x (Q : unit -> inst -> tinst -> list event -> Prop) :
    ti_inst x = i ->
    (forall m1 m2, m1 = {[ "_E" := error_obj (t_id (ti_task x)) e ]} -> m2 = {[ "_E." +:+ t_id (ti_task x) := error_obj (t_id (ti_task x)) e ]} ->
      Q tt (set_i_attrs (m2 ∪ (m1 ∪ i_attrs y)) y) x [EvSet i m2 (e_track E); EvSet i m1 (e_track E)]) ->
    loc i t (append_error_data E t e) y x Q.
  Proof.
    intros Hi HQ. unfold append_error_data. apply loc_bti. cbv zeta. rewrite Hi. unfold set_value.
    apply loc_bind, loc_set_values. apply loc_set_values. by apply HQ.
  Qed.
  Lemma panics_step s t x m s1 : panics E s t x m s1 -> do_step E s = bind (exec_recover E t m) (fun _ => ret true) s1.
  Proof.
    intros (Hm & Hx & w & q & Hq & Hb). unfold do_step, modify, bind at 1. set (s0 := set_s_step (S (s_step s)) s) in *.
    assert (Hm0 : main_status s0 = Some FActive) by exact Hm. assert (Hx0 : s_tis s0 !! t = Some x) by exact Hx.
    assert (Hq0 : s_queue s0 = (w, t) :: q) by exact Hq. change (s_log s) with (s_log s0) in Hb. clearbody s0.
    unfold main_status in Hm0. destruct (s_insts s0 !! 0%nat) as [y|] eqn:Hy; [|done]. injection Hm0 as Ha.
    rewrite (eval_get_inst _ _ _ _ Hy). rewrite bool_decide_true by done. unfold bind at 1, get. rewrite Hq0.
    rewrite (eval_get_ti _ _ _ _ Hx0). unfold bind at 1. unfold bind at 1, log_ev, modify.
    unfold exec_task, catch, bind at 1. cbn [s_log set_s_queue]. rewrite Hb. done.
  Qed.
  Lemma panics_state s t x m s1 : running E d uri s -> panics E s t x m s1 ->
    reach E d uri (Some t) s1 /\ kst s1 /\ exists x1, s_tis s1 !! t = Some x1 /\ ti_inst x1 = ti_inst x /\ ti_task x1 = ti_task x.
  Proof.
    intros R (Hm & Hx & w & q & Hq & Hb). pose proof (kst_running _ _ _ _ R) as K. apply running_reach in R as [c R].
    unfold main_status in Hm. destruct (s_insts s !! 0%nat) as [y|] eqn:Hy; [|done]. injection Hm as Ha.
    pose proof (popped_reach _ _ _ _ _ _ _ _ _ _ R Hq Hx Hy Ha) as R1. 
    set (s0 := set_s_log _ _) in Hb. assert (R0 : reach E d uri (Some t) s0) by exact R1. assert (K0 : kst s0) by exact K. assert (Hx0 : s_tis s0 !! t = Some x) by exact Hx. clearbody s0.
    destruct (fz_exec_body E t s0 K0) as (K3 & (X3 & _) & _). destruct (X3 _ _ Hx0) as (x3 & Hx3 & (I3 & T3 & _)).
    rewrite Hb in K3, Hx3. split; [|split; [done|eauto]].
    change s1 with (@Panic unit m, s1).2. rewrite <- Hb. eapply (reach_wp _ _ _ _ _ _ T); [exact R0|by apply wp_exec_body].
  Qed.

  Lemma panic_fails s t x m s1 y1 : running E d uri s -> panics E s t x m s1 -> ti_inst x = 0%nat -> s_insts s1 !! 0%nat = Some y1 ->
    i_handling y1 = false -> d_eh d = None ->
    exists y', s_insts (do_step E s).2 !! 0%nat = Some y' /\ i_status y' = FFailed /\ i_rerr y' = Some (EOther (panic_text x m)).
  Proof.
    intros R P Hi Hy1 Hh Hd. destruct (panics_state _ _ _ _ _ R P) as (R1 & K1 & x1 & Hx1 & Hi1 & Ht1).
    destruct (inv_main _ _ _ _ _ R1) as (y' & Hy' & Hdef & _). assert (y' = y1) as -> by congruence.
    rewrite (panics_step _ _ _ _ _ P).
    assert (tot (exec_recover E t m) s1 (fun _ s' => exists y', s_insts s' !! 0%nat = Some y' /\ i_status y' = FFailed /\ i_rerr y' = Some (EOther (panic_text x m)))) as Hto.
    { unfold exec_recover. eapply tot_bti; [exact Hx1|]. eapply tot_binst; [rewrite Hi1, Hi; exact Hy1|]. cbv zeta. rewrite Hh, Ht1, Hi1, Hi. fold (panic_text x m).
      eapply tot_mono.
      { eapply (loc_run 0 t _ y1 x1 s1 (fun _ y' x' _ => i_status y' = FFailed /\ i_rerr y' = Some (EOther (panic_text x m)))); [|done|done].
        apply loc_bind, loc_append; [congruence|]. intros m1 m2 _ _. unfold global_error, handle_global_error. apply loc_binst.
        cbn [set_i_attrs i_handling i_def]. rewrite Hh, Hdef, Hd.
        apply loc_bind, loc_upd_inst, loc_bind, loc_set_flow_status. cbn [Nat.eqb]. apply loc_upd_inst.
        cbn [set_i_rerr i_status i_rerr]. split; [|done].
        match goal with |- i_status (posted E FFailed ?y0) = _ => exact (proj1 (proj2 (proj2 (posted_fields E FFailed y0)))) end. }
      intros [] s' (y' & x' & l & n & -> & H1 & H2). exists y'. by rewrite put_inst. }
    destruct (tot_run _ _ _ Hto) as (a & Ha & H). unfold bind. destruct (exec_recover E t m s1) as [o s2]. cbn in Ha, H. by rewrite Ha.
  Qed.

  Lemma panic_handled s t x m s1 y1 h : running E d uri s -> built d -> settings_ok E -> e_conc E = false -> handler_acting d ->
    panics E s t x m s1 -> ti_inst x = 0%nat -> s_insts s1 !! 0%nat = Some y1 -> i_status y1 = FActive -> i_handling y1 = false -> d_eh d = Some h ->
    taken_over h x (EEval (t_name (ti_task x)) "unhandled" (panic_text x m)) s1 (do_step E s).2.
  Proof.
    intros R B SO NC HA P Hi Hy1 Hact Hh Hd. destruct (panics_state _ _ _ _ _ R P) as (R1 & K1 & x1 & Hx1 & Hi1 & Ht1).
    destruct (inv_main _ _ _ _ _ R1) as (y' & Hy' & Hdef & _). assert (y' = y1) as -> by congruence.
    rewrite (panics_step _ _ _ _ _ P). set (e := EEval _ _ _).
    assert (tot (exec_recover E t m) s1 (fun _ s' => begins_handler h t e s1 y1 x1 s')) as Hto.
    { unfold exec_recover. eapply tot_bti; [exact Hx1|]. eapply tot_binst; [rewrite Hi1, Hi; exact Hy1|]. cbv zeta. rewrite Hh, Ht1, Hi1, Hi. fold (panic_text x m). fold e.
      eapply tot_loc; [done|done|]. apply loc_append; [congruence|]. intros m1 m2 -> -> n4.
      unfold global_error, handle_global_error.
      eapply tot_binst; [apply put_inst|]. cbn [set_i_attrs i_handling i_def]. rewrite Hh, Hdef, Hd.
      eapply tot_loc; [apply put_inst|apply put_ti|]. apply loc_upd_inst. intros n5. rewrite put_put.
      eapply tot_loc; [apply put_inst|apply put_ti|]. unfold clear_tasks. apply loc_binst, loc_bind, loc_upd_inst, loc_log. intros n6. rewrite put_put.
      set (y2 := set_i_tasks ∅ _). set (s2 := put _ _ _ _ _ _ s1).
      unfold enter_top. apply tot_bind. eapply tot_binst; [apply put_inst|]. cbn [enter_tasks]. unfold with_lock. rewrite NC.
      eapply tot_mono.
      { apply (enter_starts E NC SO _ 0 (start_tasks (eh_tasks h)) s2 y2); [apply put_inst| |by apply (handler_starts d)].
        intros tk Htk. unfold start_tasks in Htk. apply elem_of_list_In, List.filter_In in Htk as [Hin Htk]. apply elem_of_list_In in Hin.
        assert (t_from tk = []) as Hf by (by destruct (t_from tk)). split_and!; [done|by eapply HA|done]. }
      intros r s' [-> St]. apply tot_ret. exists s2, y2, x1. split_and!; try done.
      all: unfold y2; cbn [i_attrs i_handling i_status set_i_tasks set_i_handling set_i_attrs].
      - rewrite lookup_union_r by (by rewrite lookup_singleton_ne). apply lookup_union_Some_l, lookup_singleton.
      - apply lookup_union_Some_l, lookup_singleton.
      - congruence. }
    destruct (tot_run _ _ _ Hto) as (a & Ha & H). unfold bind. destruct (exec_recover E t m s1) as [o s2]. cbn in Ha, H. rewrite Ha. cbn.
    eapply begins_taken; [exact R1|exact Hy1|exact Hx1|done|congruence|exact Ht1|exact H].
  Qed.

  Lemma panic_in_sub s t x m s1 y1 ht : running E d uri s -> SpecSub.recordable E -> panics E s t x m s1 -> ti_inst x <> 0%nat ->
    s_insts s1 !! ti_inst x = Some y1 -> i_handling y1 = false -> d_eh (i_def y1) = None -> i_host y1 = Some ht ->
    Subflows.resumed (ti_inst x) ht (EOther (panic_text x m)) s1 (do_step E s).2.
  Proof.
    intros R Rc P Hi Hy1 Hh Hd Hht. destruct (panics_state _ _ _ _ _ R P) as (R1 & K1 & x1 & Hx1 & Hi1 & Ht1).
    rewrite (panics_step _ _ _ _ _ P).
    destruct (inv_rdy _ _ _ _ _ R1) as (_ & _ & I). destruct (I (ti_inst x) (i_def y1) ht) as (? & ? & (xh & Hxh & _) & _); [exists y1; by rewrite <- Hht|].
    assert (tot (exec_recover E t m) s1 (fun _ s' => Subflows.resumed (ti_inst x) ht (EOther (panic_text x m)) s1 s')) as Hto.
    { unfold exec_recover. eapply tot_bti; [exact Hx1|]. eapply tot_binst; [rewrite Hi1; exact Hy1|]. cbv zeta. rewrite Hh, Ht1, Hi1. fold (panic_text x m).
      assert (forall y' x' l n, exists xh', s_tis (put (ti_inst x) t y' x' l n s1) !! ht = Some xh') as Hht'.
      { intros y' x' l n. destruct (decide (ht = t)) as [->|]; [rewrite put_ti|rewrite put_ti_ne by done]; eauto. }
      eapply (tot_loc (ti_inst x) t); [done|done|]. apply loc_append; [congruence|]. intros m1 m2 _ _ n4.
      unfold global_error, handle_global_error.
      eapply tot_binst; [apply put_inst|]. cbn [set_i_attrs i_handling i_def]. rewrite Hh, Hd.
      eapply tot_loc; [apply put_inst|apply put_ti|]. apply loc_upd_inst. intros n5. rewrite put_put.
      eapply tot_loc; [apply put_inst|apply put_ti|]. apply loc_set_flow_status. intros n6. rewrite put_put.
      match goal with |- context [posted E FFailed ?y0] => destruct (posted_fields E FFailed y0) as (P1 & _ & P3 & _); set (y9 := posted E FFailed y0) in * end.
      cbn [i_host i_status set_i_status set_i_handling set_i_attrs set_i_links lmap] in P1, P3. rewrite Hht in P1. clearbody y9.
      destruct (Nat.eqb_spec (ti_inst x) 0) as [|_]; [done|].
      set (s5 := put _ _ _ _ _ _ _). assert (exists xh', s_tis s5 !! ht = Some xh') as [xh' Hxh'] by apply Hht'.
      assert (s_insts s5 !! ti_inst x = Some y9) as Hy9 by apply put_inst. assert (s_queue s5 = s_queue s1) as Hq by done. clearbody s5.
      apply tot_bind. eapply tot_mono; [by apply tot_record|]. intros [] s' [l ->].
      apply tot_bind. unfold host_of. eapply tot_binst; [exact Hy9|]. apply tot_ret. rewrite P1.
      apply tot_bind, tot_upd_ti. unfold schedule_eval. eapply tot_bti; [cbn; by rewrite lookup_alter, Hxh'|].
      apply tot_bind, tot_get, tot_bind, tot_modify, tot_log. exists y9. eexists _, _.
      split_and!; [exact Hy9|exact P3|exact P1|cbn; by rewrite lookup_alter, Hxh'|done|]. cbn. by rewrite Hq. }
    destruct (tot_run _ _ _ Hto) as (a & Ha & H). unfold bind. destruct (exec_recover E t m s1) as [o s2]. cbn in Ha, H. by rewrite Ha.
  Qed.
End Panics.
