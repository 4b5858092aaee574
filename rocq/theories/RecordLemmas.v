(** The lemmas about recording, saving and restarting for the states an observer can see. *)
From Verif Require Export Replay Snapshots Recorded SerProofs RestartProofs.
Local Open Scope Z_scope.

Section Seen.
  Local Set Default Proof Using "Type*".
  Context (E : env) (d : defn) (uri : string).

  Lemma seen_reloaded js s id v v' : visited E d uri s -> saves id s v -> json_saved js v = Some v' ->
    (forall w, w ∈ items s -> live_item s w) ->
    exists l, unmarshal v' = Ok l /\ ld_id l = id /\ flow_kept js s 0 (ld_main l) /\
      dom (ld_subs l) = s_subs s /\ (forall i f, ld_subs l !! i = Some f -> flow_kept js s i f) /\
      fst <$> ld_queue l = items s /\
      (forall w b, (w, b) ∈ ld_queue l -> b = true <->
        exists y, s_insts s !! w.2 = Some y /\ is_Some (i_tasks y !! w.1.2 ≫= fun t => s_tis s !! t)) /\
      (forall i, i ∈ s_subs s -> (i <= ld_sfctr l)%nat).
  Proof. intros [c R]%visited_reach. by apply (reloaded E d uri js s c id v v'). Qed.
  Lemma seen_lost js s id v v' w : visited E d uri s -> saves id s v -> json_saved js v = Some v' -> w ∈ items s -> ~ live_item s w ->
    unmarshal v' = Panic "nil subflow".
  Proof. intros [c R]%visited_reach. by apply (reload_lost E d uri js s c id v v' w). Qed.

  Lemma seen_restarts js s id v v' init :
    visited E d uri s -> (forall tk, tk ∈ all_tasks d -> t_act tk <> None) ->
    saves id s v -> json_saved js v = Some v' ->
    (forall w, w ∈ items s -> w.2 = 0%nat /\ exists y, s_insts s !! 0%nat = Some y /\ is_Some (i_tasks y !! w.1.2)) ->
    init <= 0 \/ (length (items s) <= 2)%nat ->
    exists l s' y y', unmarshal v' = Ok l /\ restart E (DOk d) init l = (Ok None, Some s') /\
      s_insts s !! 0%nat = Some y /\ s_insts s' !! 0%nat = Some y' /\ items s' = items s /\
      i_status y' = FActive /\ i_uri y' = i_uri y /\ i_links y' = i_links y /\ (forall k, i_attrs y' !! k = i_attrs y !! k ≫= js) /\
      (forall n, is_Some (i_tasks y' !! n) <-> is_Some (i_tasks y !! n)) /\
      (forall n t x, i_tasks y !! n = Some t -> s_tis s !! t = Some x -> init <= 0 \/ n ∉ (items s).*1.*2 ->
        exists t' x', i_tasks y' !! n = Some t' /\ s_tis s' !! t' = Some x' /\ ti_status x' = ti_status x) /\
      (forall n, 0 < init -> n ∈ (items s).*1.*2 -> exists t' x', i_tasks y' !! n = Some t' /\ s_tis s' !! t' = Some x' /\ ti_status x' = TReady).
  Proof.
    intros [c R]%visited_reach Hact Hs Hj Hit Hi.
    destruct (restarts E d uri js s c id v v' init R Hact Hs Hj Hit) as (l & s' & y & y' & H1 & H2 & H3 & H4 & H5 & H6 & H7 & H8 & H9 & H10 & H11).
    exists l, s', y, y'. do 4 (split; [done|]).
    assert (0 < init -> take 2 (items s) = items s /\ drop 2 (items s) = []) as Ht.
    { intros Hp. destruct Hi as [?|Hi]; [lia|]. split; [by apply take_ge|by apply drop_ge]. }
    split. { rewrite H5. destruct (0 <? init) eqn:Ez; [|done]. apply Z.ltb_lt in Ez. destruct (Ht Ez) as [-> ->]. done. }
    do 5 (split; [done|]). split.
    - intros n t x Hn Hx Hor. destruct (H11 n t x Hn Hx) as (t' & x' & A1 & A2 & _ & A4). exists t', x'. split_and!; try done.
      apply A4. intros [Hp Hin]. destruct (Ht Hp) as [Ht1 _]. rewrite Ht1 in Hin. destruct Hor as [?|?]; [lia|done].
    - intros n Hp Hin. destruct (Ht Hp) as [Ht1 _]. pose proof Hin as Hin'. apply elem_of_list_fmap in Hin as (w1 & -> & Hin). apply elem_of_list_fmap in Hin as (w & -> & Hin).
      destruct (Hit w Hin) as (_ & y1 & Hy1 & [t Hn]). rewrite H3 in Hy1. injection Hy1 as <-.
      destruct (registered_is s 0 w.1.2 t) as (tk & (x & Hx & _) & _); [by eapply reach_fresh|by exists y|].
      destruct (H11 _ t x Hn Hx) as (t' & x' & A1 & A2 & A3 & _). exists t', x'. split_and!; try done. apply A3. by rewrite Ht1.
  Qed.

  Lemma seen_replays db s : visited E d uri s -> in_order (s_log s) -> links_reported s ->
    replay (recorded db 0 uri s ++ [tk_step (tracked db 0 uri (s_log s)).1]) = live s.
  Proof. intros [c R]%visited_reach. by apply (replays E d uri db s c). Qed.
  Lemma seen_recorded db s r : visited E d uri s -> s_log s = EvStep :: r -> in_order (s_log s) -> links_reported s ->
    replay (recorded db 0 uri s) = live s.
  Proof.
    intros V Hl Ho Hr. pose proof (seen_replays db s V Ho Hr) as Hrep. rewrite replay_snoc in Hrep. rewrite <- Hrep.
    apply map_eq. intros i. rewrite replay_step_lookup. rewrite Hl. simpl. destruct (tracked db 0 uri r) as [k ps]. simpl. by rewrite lookup_empty.
  Qed.
  Lemma seen_snapshot fo qo db s y r :
    (forall m, fo m ≡ₚ (map_to_list m).*2) ->
    visited E d uri s -> s_log s = EvStep :: r -> in_order (s_log s) -> links_reported s ->
    dom (s_insts s) = {[ 0%nat ]} -> s_insts s !! 0%nat = Some y ->
    let sn := steps_to_snapshot fo qo (recorded db 0 uri s) in
    (i_status y <> 0 -> sb_status (sn_base sn) = i_status y) /\
    (forall id t x, i_tasks y !! id = Some t -> s_tis s !! t = Some x -> ti_status x <> 0 ->
       sb_tasks (sn_base sn) !! id = Some (ti_status x)) /\
    (forall n z, i_links y !! n = Some z -> z <> 0 -> sb_links (sn_base sn) !! n = Some z).
  Proof. intros Hfo [c R]%visited_reach. by apply (snapshot_shows E d uri fo qo db s c y r). Qed.

  Lemma seen_lap_steps s m b : running E d uri s -> e_ext E = true -> e_rec E = Some m -> record_steps m = true ->
    (lap E s).1 = Ok b ->
    exists l, s_log (lap E s).2 = EvStep :: l ++ s_log s /\ (steps_in l <= subflow_failures l)%nat.
  Proof. intros [c R]%running_reach. by apply (lap_steps E d uri c s m b). Qed.
  Lemma seen_laps_steps n s m : running E d uri s -> e_ext E = true -> e_rec E = Some m -> record_steps m = true ->
    (forall k, (k < n)%nat -> exists b, (lap E (laps E k s)).1 = Ok b) ->
    exists l, s_log (laps E n s) = l ++ s_log s /\ (n <= steps_in l <= n + subflow_failures l)%nat.
  Proof. intros [c R]%running_reach. by apply (laps_steps E d uri n c s m). Qed.
End Seen.
