(** How many steps a run records, and their ids. *)
From Verif Require Export SpecRec Run.
Local Open Scope Z_scope.

Lemma subflow_failures_cons e l : (subflow_failures l <= subflow_failures (e :: l))%nat.
Proof. unfold subflow_failures. cbn [omap list_omap]. case_match; simpl; lia. Qed.
Lemma steps_in_app l1 l2 : steps_in (l1 ++ l2) = (steps_in l1 + steps_in l2)%nat.
Proof. unfold steps_in. by rewrite omap_app, app_length. Qed.
Lemma subflow_failures_app l1 l2 : subflow_failures (l1 ++ l2) = (subflow_failures l1 + subflow_failures l2)%nat.
Proof. unfold subflow_failures. by rewrite omap_app, app_length. Qed.

(** Steps follow failures of subflows. *)
Definition paid (l : list event) : Prop :=
  (steps_in l <= subflow_failures l)%nat /\
  (forall i, i <> 0%nat -> just_failed l i -> (steps_in l < subflow_failures l)%nat).
Lemma failed_cons e l i : just_failed (e :: l) i -> e = EvFlowStatus i FFailed \/ just_failed l i.
Proof.
  intros [(r & [H|(j & z & ins & outs & f & H)])|(sn & r & H & Hr)]; [injection H as -> _; by left|right|right].
  - injection H as _ ->. left. exists r. by left.
  - injection H as _ ->. by left.
Qed.
Lemma failed_app l w k id r i : just_failed (l ++ EvQDel w k id :: r) i -> just_failed l i.
Proof.
  assert (N : forall l, now_failed (l ++ EvQDel w k id :: r) i -> now_failed l i).
  { clear l. intros l (r' & [H|(j & z & ins & outs & f & H)]).
    - destruct l as [|a l]; [done|]. injection H as -> _. exists l. by left.
    - destruct l as [|a [|b l]]; [done|done|]. injection H as -> -> _. exists l. right. by repeat eexists. }
  intros [H|(sn & r' & H & Hr)]; [left; auto|]. destruct l as [|a l]; [done|]. injection H as -> <-. right. eauto.
Qed.
Lemma paid_cons e l : e <> EvStep -> paid l -> paid (e :: l).
Proof.
  intros He [P1 P2]. assert (steps_in (e :: l) = steps_in l) as Hs by (unfold steps_in; by destruct e).
  pose proof (subflow_failures_cons e l) as Hf. split; [lia|].
  intros i Hi [->|Hj]%failed_cons.
  - rewrite Hs. destruct i; [done|]. unfold subflow_failures in *. cbn [omap list_omap]. rewrite decide_True by done. cbn [length]. lia.
  - pose proof (P2 i Hi Hj). lia.
Qed.

Section Laps.
  Local Set Default Proof Using "Type*".
  Context (E : env) (d : defn) (uri : string).

  Lemma step_paid c s : reach E d uri c s ->
    exists l, s_log (do_step E s).2 = l ++ s_log s /\ (steps_in l <= subflow_failures l)%nat.
  Proof.
    intros H. destruct (do_step_cases E s) as [->|(w & t & q & x & y & Hq & Hx & Hy & Ha & ->)].
    { exists []. by split. }
    pose proof (popped_reach _ _ _ _ _ _ _ _ _ _ H Hq Hx Hy Ha) as R. pose proof (reach_fresh _ _ _ _ _ R) as F.
    destruct (asteps_ind2 E (Some t) (popped w t x q s) (fun l _ => paid l /\ forall i, just_failed (l ++ s_log (popped w t x q s)) i -> just_failed l i) F) with (4 := exec_asteps E d uri (Some t) t _ R)
      as (l & Hl & [[Hp _] _]).
    - split; [split; [done|]|].
      + intros i _ [(r & [Hr|(? & ? & ? & ? & ? & Hr)])|(sn & r & Hr & _)]; done.
      + intros i. apply (failed_app []).
    - done.
    - intros l s1 s2 e F1 Hl [P J] St He. split.
      + assert (e = EvStep \/ e <> EvStep) as [->|Hne] by (destruct e; try (by right); by left); [|by apply paid_cons].
        assert (exists i, i <> 0%nat /\ just_failed (s_log s1) i) as (i & Hi & Hj).
        { assert (forall (a : event) k, k <> a :: k) as Hk. { intros a k Hk. apply (f_equal length) in Hk. simpl in Hk. lia. }
          destruct St; cbn in He; try (by apply Hk in He); try done; [|by exists i]. injection He as ->. done. }
        rewrite Hl in Hj. pose proof (J i Hj) as J1. destruct P as [P1 P2]. pose proof (P2 i Hi J1) as P3. split.
        * change (S (steps_in l) <= subflow_failures l)%nat. lia.
        * intros j Hj0 [(r & [Hr|(? & ? & ? & ? & ? & Hr)])|(sn & r & Hr & _)]; done.
      + intros i. apply (failed_app (_ :: l)).
    - exists (l ++ [EvQDel w (ti_inst x) (t_id (ti_task x))]). rewrite Hl. split; [by rewrite <- app_assoc|].
      rewrite steps_in_app, subflow_failures_app.
      change (steps_in [EvQDel _ _ _]) with 0%nat. lia.
  Qed.

  Lemma lap_steps c s m b : reach E d uri c s -> e_ext E = true -> e_rec E = Some m -> record_steps m = true ->
    (lap E s).1 = Ok b ->
    exists l, s_log (lap E s).2 = EvStep :: l ++ s_log s /\ (steps_in l <= subflow_failures l)%nat.
  Proof.
    intros R Hx Hm Hr Ho. destruct (step_paid c s R) as (l & Hl & Hle). unfold lap, bind in *. destruct (do_step E s) as [[more| | |] s1]; simpl in Ho; try done.
    simpl in Hl. rewrite Hx in *. unfold record_state in *. rewrite Hm, Hr, Hx in *. destruct (record_snapshot m); simpl in *.
    - unfold bind, get, log_ev, modify in *. simpl in *. exists (EvSnapshot (take_snapshot s1) :: l). rewrite Hl. split; [done|]. change (steps_in l <= subflow_failures l)%nat. done.
    - exists l. by rewrite Hl.
  Qed.

  Lemma laps_steps n c s m : reach E d uri c s -> e_ext E = true -> e_rec E = Some m -> record_steps m = true ->
    (forall k, (k < n)%nat -> exists b, (lap E (laps E k s)).1 = Ok b) ->
    exists l, s_log (laps E n s) = l ++ s_log s /\ (n <= steps_in l <= n + subflow_failures l)%nat.
  Proof.
    intros R Hx Hm Hr. revert c s R. induction n as [|n IH]; intros c s R Hok.
    { exists []. split; [done|]. unfold steps_in. simpl. lia. }
    destruct (Hok 0%nat) as [b Hb]; [lia|]. simpl in Hb. destruct (lap_steps c s m b R Hx Hm Hr Hb) as (l1 & Hl1 & Hle).
    destruct (lap_counts E d uri c s R) as [[c1 R1] _].
    destruct (IH c1 (lap E s).2 R1) as (l2 & Hl2 & Hle2).
    { intros k Hk. destruct (Hok (S k)) as [b' Hb']; [lia|]. by exists b'. }
    exists (l2 ++ EvStep :: l1). simpl. rewrite Hl2, Hl1. split; [by rewrite <- app_assoc|].
    rewrite steps_in_app, subflow_failures_app.
    change (steps_in (EvStep :: l1)) with (S (steps_in l1)). change (subflow_failures (EvStep :: l1)) with (subflow_failures l1). lia.
  Qed.
End Laps.

(** The ids of the steps. *)
Lemma tracked_ids db uri l : EvSkipStep ∉ l ->
  sp_id <$> tk_step (tracked db 0 uri l).1 :: (tracked db 0 uri l).2 = rev (seq 0 (S (steps_in l))) /\ tk_ctr (tracked db 0 uri l).1 = steps_in l.
Proof.
  induction l as [|e l IH]; intros Hn; [done|].
  destruct IH as [I1 I2]; [intros Hin; apply Hn; by right|]. assert (e <> EvSkipStep) as He by (intros ->; apply Hn; by left). clear Hn.
  cbn [tracked]. destruct (tracked db 0 uri l) as [k ps]. cbn [fst snd] in *.
  destruct (decide (steps_in (e :: l) = steps_in l)) as [Heq|Hne].
  - rewrite Heq. destruct e; simpl; try done; try (exfalso; change (S (steps_in l) = steps_in l) in Heq; lia);
      unfold tk_attrs, tk_done, tk_queue; repeat case_match; try done; simpl.
  - destruct e; try (by exfalso; apply Hne). change (steps_in (EvStep :: l)) with (S (steps_in l)). cbn [track1 tk_extract fst snd tk_step tk_ctr].
    rewrite I2. split; [|done]. rewrite (seq_S (S _)), rev_app_distr. cbn [rev app]. rewrite <- I1. done.
Qed.
Lemma recorded_ids db uri s : EvSkipStep ∉ s_log s -> sp_id <$> recorded db 0 uri s = seq 0 (steps_in (s_log s)).
Proof.
  intros Hn. destruct (tracked_ids db uri _ Hn) as [H _]. unfold recorded. set (l := steps_in (s_log s)) in *.
  rewrite seq_S, rev_app_distr in H. simpl in H. injection H as _ H.
  apply (f_equal (@rev nat)) in H. rewrite rev_involutive in H. rewrite <- H. clear. induction (tracked db 0 uri (s_log s)).2 as [|p ps IH]; [done|]. simpl. rewrite fmap_app, IH. done.
Qed.

(** The snapshot recorded in a round. *)
Lemma record_log E m s : e_ext E = true -> e_rec E = Some m -> record_snapshot m = true ->
  record_state E s = (Ok tt, set_s_log ((if record_steps m then [EvStep] else []) ++ EvSnapshot (take_snapshot s) :: s_log s) s).
Proof.
  intros Hx Hm Hs. unfold record_state. rewrite Hm, Hs, Hx. by destruct (record_steps m).
Qed.
Lemma lap_snapshot E d uri s m b : running E d uri s -> e_ext E = true -> e_rec E = Some m -> record_snapshot m = true ->
  (lap E s).1 = Ok b ->
  exists sn l y, s_log (lap E s).2 = (if record_steps m then [EvStep] else []) ++ EvSnapshot sn :: l /\
    s_insts (lap E s).2 !! 0%nat = Some y /\
    sb_uri (sn_base sn) = i_uri y /\ sb_status (sn_base sn) = i_status y /\ sb_attrs (sn_base sn) = i_attrs y /\
    (forall id, sb_tasks (sn_base sn) !! id = i_tasks y !! id ≫= fun t => ti_status <$> s_tis (lap E s).2 !! t) /\
    sb_links (sn_base sn) = i_links y.
Proof.
  intros R Hx Hm Hs Ho. destruct (running_reach E d uri _ (running_step E d uri s R)) as [c H1].
  destruct (inv_main E d uri c _ H1) as (y & Hy & _).
  assert (exists more, do_step E s = (Ok more, (do_step E s).2)) as [more Hd].
  { unfold lap in Ho. unfold bind in Ho. destruct (do_step E s) as [[more| | |] s1]; [by exists more|discriminate..]. }
  revert Hy Hd. generalize ((do_step E s).2). intros s1 Hy Hd. clear H1 R Ho.
  assert ((lap E s).2 = set_s_log ((if record_steps m then [EvStep] else []) ++ EvSnapshot (take_snapshot s1) :: s_log s1) s1) as ->.
  { unfold lap. unfold bind at 1. rewrite Hd, Hx. unfold bind. by rewrite (record_log E m s1 Hx Hm Hs). }
  exists (take_snapshot s1), (s_log s1), y. unfold take_snapshot. rewrite Hy.
  cbn [s_log s_insts s_tis set_s_log sn_base snap_of sb_uri sb_status sb_attrs sb_tasks sb_links].
  repeat (split; [reflexivity || exact Hy|]). split; [|reflexivity]. intros id. apply lookup_omap.
Qed.
