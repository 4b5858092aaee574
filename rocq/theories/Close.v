(** What ending a task - done, skipped or failed with an error link - does to its flow (proofs; no Go
    counterpart). *)
From Verif Require Export Fan SpecFlow.
Local Open Scope Z_scope.

Lemma insert_perm {A} (e : A * Z) l : insert_entry e l ≡ₚ e :: l.
Proof.
  induction l as [|e' l IH]; cbn [insert_entry]; [done|]. destruct (_ <=? _); [done|]. rewrite IH. apply perm_swap.
Qed.
Lemma sort_perm {A} (l : list (A * Z)) : sort_entries l ≡ₚ l.
Proof. induction l as [|e l IH]; cbn [sort_entries]; [done|]. by rewrite insert_perm, IH. Qed.

(** Events of ending a task. *)
Definition close_ev (i : nat) (tk : task) (z : Z) (v : nat -> bool) (e : event) : Prop :=
  side_ev i e \/ e = EvTaskUpd i (t_id tk) z \/
  (exists l z', l ∈ t_to tk /\ e = EvLinkSet i (l_id l) z' /\ (z' = fate z (t_to tk) v l \/ (z' = LFalse /\ z <> TSkipped))) \/
  (exists l, l ∈ t_to tk /\ l_type l = LtExpression /\ z = TDone /\ e = EvLinkEval i (l_id l) (v (l_id l))) \/
  (exists m b, e = EvSet i m b).

Record closing (i : nat) (y : inst) (x : tinst) (z : Z) (v : nat -> bool) (es : list entry) (y' : inst) (x' : tinst) (ev : list event) : Prop := {
  cl_tasks : i_tasks y' = i_tasks y;
  cl_def : i_def y' = i_def y;
  cl_status : i_status y' = i_status y;
  cl_handling : i_handling y' = i_handling y;
  cl_force : i_force y' = i_force y;
  cl_in : forall l, l ∈ t_to (ti_task x) -> link_status y' l = fate z (t_to (ti_task x)) v l;
  cl_out : forall l, l_id l ∉ l_id <$> t_to (ti_task x) -> link_status y' l = link_status y l;
  cl_x : ti_status x' = z /\ ti_inst x' = i /\ ti_task x' = ti_task x;
  cl_es : exists A, let B := List.filter (fun l => negb (fate z (t_to (ti_task x)) v l =? LTrue)) (t_to (ti_task x)) in
    Forall2 (fun e l => link_target (i_def y) l = Some e.1) es (A ++ B) /\ A ++ B ≡ₚ t_to (ti_task x) /\
    (forall l, l ∈ A -> fate z (t_to (ti_task x)) v l = LTrue);
  cl_ev : Forall (close_ev i (ti_task x) z v) ev;
  cl_set : forall l, l ∈ t_to (ti_task x) -> EvLinkSet i (l_id l) (fate z (t_to (ti_task x)) v l) ∈ ev;
  cl_val : forall l, z = TDone -> l ∈ t_to (ti_task x) -> l_type l = LtExpression -> EvLinkEval i (l_id l) (v (l_id l)) ∈ ev
}.

Section Close.
  Local Set Default Proof Using "Type*".
  Context (E : env) (i t : nat) (C : cov_ok E).
  Notation loc := (loc i t).

  Lemma fate_done ls v l : fate TDone ls v l = if followed ls v l then LTrue else LFalse.
  Proof. done. Qed.
  Lemma true_false (b : bool) : ((if b then LTrue else LFalse) =? LTrue) = b.
  Proof. by destruct b. Qed.

  Lemma side_close tk z v ev : Forall (side_ev i) ev -> Forall (close_ev i tk z v) ev.
  Proof. intros F. eapply Forall_impl; [exact F|]. by left. Qed.

  (** The order of the links of a finished task. *)
  Lemma fan_out_order ls v :
    let fol := followed ls v in
    fan_out (e_prio E) ls fol = List.filter fol (fan_out (e_prio E) ls fol) ++ List.filter (fun l => negb (fol l)) ls /\
    fan_out (e_prio E) ls fol ≡ₚ ls.
  Proof.
    cbv zeta. split; [apply fan_out_split|].
    rewrite <- (sort_fan_out E (followed ls v) ls) by (intros l _ Hty; unfold followed; by rewrite Hty).
    rewrite sort_perm, <- list_fmap_compose. by rewrite list_fmap_id.
  Qed.

  Context (L : links_ok E).
  (** ... by handleTaskDone, evaluated: *)
  Lemma loc_close_done y x :
    ti_inst x = i -> NoDup (l_id <$> t_to (ti_task x)) ->
    (forall l, l ∈ t_to (ti_task x) -> exists tk, link_target (i_def y) l = Some tk) ->
    loc (bind (beh_done E t) (fun d => add_activity_coverage E t ;; ret d)) y x (fun r y' x' ev =>
      exists v es, r = inr (bool_decide (t_to (ti_task x) = []), es) /\ closing i y x TDone v es y' x' ev /\ EvTaskUpd i (t_id (ti_task x)) TDone ∈ ev).
  Proof.
    intros Hi N Ht. apply loc_bind. destruct (decide (t_to (ti_task x) = [])) as [He|Hne].
    - eapply loc_mono; [by apply loc_done_end|]. intros r y1 x1 ev1 (-> & -> & -> & e2 & -> & F2).
      apply loc_bind, loc_coverage; [done..|]. intros ls ev Hls Fev. apply loc_ret.
      exists (fun _ => false), []. split; [by rewrite bool_decide_true|]. split; [|set_solver]. split; try done.
      + intros l. rewrite He. by intros ?%elem_of_nil.
      + intros l _. apply status_made.
      + exists []. rewrite He. cbn. split_and!; [constructor|done|]. by intros l ?%elem_of_nil.
      + cbn [app]. apply Forall_app. split; [by apply side_close|]. apply Forall_cons. split; [right; by left|by apply side_close].
      + intros l. rewrite He. by intros ?%elem_of_nil.
      + intros l _. rewrite He. by intros ?%elem_of_nil.
    - eapply loc_mono; [by apply loc_done|]. intros r y1 x1 ev1 (-> & es & v & ev0 & -> & D & e1 & e2 & -> & -> & F2).
      apply loc_bind, loc_coverage; [done..|]. intros ls ev Hls Fev. apply loc_ret.
      exists v, es. split; [by rewrite bool_decide_false|]. split; [|set_solver].
      pose proof (dp_y _ _ _ _ _ _ _ _ D) as Hy. split.
      + by rewrite Hy.
      + by rewrite Hy.
      + by rewrite Hy.
      + by rewrite Hy.
      + by rewrite Hy.
      + intros l Hl. rewrite status_made, status_default, (dp_in _ _ _ _ _ _ _ _ D l Hl). done.
      + intros l Hl. rewrite status_made, !status_default. by rewrite (dp_out _ _ _ _ _ _ _ _ D _ Hl).
      + done.
      + destruct (fan_out_order (t_to (ti_task x)) v) as [H1 H2]. pose proof (dp_es _ _ _ _ _ _ _ _ D) as Hes.
        exists (List.filter (followed (t_to (ti_task x)) v) (fan_out (e_prio E) (t_to (ti_task x)) (followed (t_to (ti_task x)) v))).
        cbv zeta. assert (forall ls, List.filter (fun l => negb (fate TDone (t_to (ti_task x)) v l =? LTrue)) ls
          = List.filter (fun l => negb (followed (t_to (ti_task x)) v l)) ls) as ->.
        { intros ls0. apply List.filter_ext. intros l. by rewrite fate_done, true_false. }
        rewrite <- H1. split_and!; [done|done|]. intros l Hl. apply elem_of_list_In, List.filter_In in Hl as [_ Hl]. by rewrite fate_done, Hl.
      + cbn [app]. apply Forall_app. split; [by apply side_close|].
        pose proof (dp_ev _ _ _ _ _ _ _ _ D) as HF. apply Forall_app in HF as [HF _].
        assert (Forall (close_ev i (ti_task x) TDone v) e1) as HE1.
        { eapply Forall_impl; [exact HF|]. intros e [?|[(l & z & Hl & -> & Hz)|(l & Hl & Hty & ->)]]; [by left|right; right; left|right; right; right; left].
          - exists l, z. split_and!; [done|done|]. destruct Hz as [->|[-> Hf]]; [by right|left]. by rewrite fate_done, Hf.
          - by exists l. }
        apply Forall_app. split; [done|]. apply Forall_cons. split; [right; by left|by apply side_close].
      + intros l Hl. pose proof (dp_set _ _ _ _ _ _ _ _ D l Hl) as H. rewrite fate_done. set_solver.
      + intros l _ Hl Hty. pose proof (dp_val _ _ _ _ _ _ _ _ D l Hl Hty) as H. set_solver.
  Qed.

  (** Setting the statuses of several links. *)
  Lemma loc_iter_set z ls y x (Q : unit -> inst -> tinst -> list event -> Prop) :
    NoDup (l_id <$> ls) ->
    (forall y' ev, (forall l, l ∈ ls -> i_links y' !! l_id l = Some (z l)) ->
       (forall k, k ∉ l_id <$> ls -> i_links y' !! k = i_links y !! k) -> y' = set_i_links (i_links y') y ->
       Forall (fun e => side_ev i e \/ exists l, l ∈ ls /\ e = EvLinkSet i (l_id l) (z l)) ev ->
       (forall l, l ∈ ls -> EvLinkSet i (l_id l) (z l) ∈ ev) -> Q tt y' x ev) ->
    loc (iterM (fun l => set_link_status E i l (z l)) ls) y x Q.
  Proof.
    revert y Q. induction ls as [|l ls IH]; intros y Q N HQ; cbn [iterM].
    - apply loc_ret. apply HQ; [by intros l ?%elem_of_nil|done|by destruct y|constructor|by intros l ?%elem_of_nil].
    - apply NoDup_cons in N as [Hn N]. apply loc_bind, loc_set_link; [done|]. intros e1 F1. apply IH; [done|].
      intros y' ev H1 H2 H3 H4 H5. apply HQ.
      + intros l' [->|Hl']%elem_of_cons; [|by apply H1]. rewrite H2 by done. cbn. apply lookup_insert.
      + intros k Hk. rewrite fmap_cons in Hk. rewrite H2 by set_solver. cbn. apply lookup_insert_ne. set_solver.
      + rewrite H3. done.
      + apply Forall_app. split; [|apply Forall_app; split].
        * eapply Forall_impl; [exact H4|]. intros e [?|(l' & Hl' & ->)]; [by left|]. right. exists l'. split; [by right|done].
        * eapply Forall_impl; [exact F1|]. by left.
        * apply Forall_singleton. right. exists l. split; [left|done].
      + intros l' [->|Hl']%elem_of_cons; [set_solver|]. specialize (H5 l' Hl'). set_solver.
  Qed.

  Lemma entries_loc y x es (Q : list entry -> inst -> tinst -> list event -> Prop) :
    (forall p, p ∈ es -> exists tk, link_target (i_def y) p.1 = Some tk) ->
    (forall r, Forall2 (fun e l => link_target (i_def y) l = Some e.1) r es.*1 -> Q r y x []) ->
    loc (entries_of i es) y x Q.
  Proof.
    intros H HQ. unfold entries_of. apply loc_binst. destruct (resolve_ok _ _ H) as (r & -> & F). apply loc_ret. by apply HQ.
  Qed.
  Lemma filter_all {A} (P : A -> bool) l : (forall a, a ∈ l -> P a = true) -> List.filter P l = l.
  Proof.
    induction l as [|a l IH]; intros H; cbn; [done|]. rewrite H by left. f_equal. apply IH. intros b Hb. apply H. by right.
  Qed.

  (** ... by handleTaskDone, skipped: *)
  Lemma loc_close_skip y x :
    ti_inst x = i -> NoDup (l_id <$> t_to (ti_task x)) ->
    (forall l, l ∈ t_to (ti_task x) -> exists tk, link_target (i_def y) l = Some tk) ->
    loc (beh_skip E t) y x (fun r y' x' ev =>
      exists es, r = (bool_decide (t_to (ti_task x) = []), es, false) /\ closing i y x TSkipped (fun _ => false) es y' x' ev /\ EvTaskUpd i (t_id (ti_task x)) TSkipped ∈ ev).
  Proof.
    intros Hi N Ht. unfold beh_skip. apply loc_bind, loc_to_links; [done|]. intros ev0 F0.
    apply loc_bind, loc_set_task_status, loc_bti. cbn [ti_inst set_ti_status]. rewrite Hi.
    set (ls := t_to (ti_task x)) in *. destruct (decide (ls = [])) as [He|Hne].
    - rewrite He. apply loc_ret. exists []. split; [done|]. split; [|set_solver]. split; try done.
      + intros l. fold ls. rewrite He. by intros ?%elem_of_nil.
      + exists []. fold ls. rewrite He. cbn. split_and!; [constructor|done|]. by intros l ?%elem_of_nil.
      + cbn [app]. apply Forall_cons. split; [right; by left|by apply side_close].
      + intros l. fold ls. rewrite He. by intros ?%elem_of_nil.
    - assert (forall (A : Type) (a b : A), match ls with [] => a | _ => b end = b) as Hm by (by destruct ls). rewrite Hm.
      apply loc_bind, loc_iter_set; [done|]. intros y1 ev1 H1 H2 H3 H4 H5. apply loc_bind, entries_loc.
      { intros p (l & -> & Hl)%elem_of_list_fmap. rewrite H3. by apply Ht. }
      intros r Hr. apply loc_ret. exists r. split; [by rewrite bool_decide_false|]. split; [|set_solver].
      rewrite <- list_fmap_compose in Hr. assert (fst ∘ (λ l : link, (l, 4)) <$> ls = ls) as Hid by apply list_fmap_id. rewrite Hid in Hr.
      split.
      + by rewrite H3.
      + by rewrite H3.
      + by rewrite H3.
      + by rewrite H3.
      + by rewrite H3.
      + intros l Hl. by rewrite status_default, H1.
      + intros l Hl. rewrite status_default, H2 by done. cbn. rewrite made_status. by rewrite status_default.
      + done.
      + exists []. cbv zeta. fold ls. rewrite (filter_all _ ls) by done. cbn [app]. split_and!; [by rewrite H3 in Hr|done|]. by intros l ?%elem_of_nil.
      + cbn [app]. repeat (apply Forall_app; split); [|by apply Forall_singleton; right; left|by apply side_close].
        eapply Forall_impl; [exact H4|]. intros e [?|(l & Hl & ->)]; [by left|]. right; right; left. exists l, LSkipped. split_and!; [done|done|by left].
      + intros l Hl. specialize (H5 l Hl). change (fate TSkipped (t_to (ti_task x)) (fun _ => false) l) with LSkipped. set_solver.
      + done.
  Qed.

  (** ... by handleTaskError, with an error link: *)
  Lemma loc_close_error y x :
    ti_inst x = i -> NoDup (l_id <$> t_to (ti_task x)) ->
    (forall l, l ∈ t_to (ti_task x) -> exists tk, link_target (i_def y) l = Some tk) ->
    (exists l, l ∈ t_to (ti_task x) /\ l_type l = LtError) ->
    loc (set_task_status t TFailed ;; add_activity_coverage E t ;; beh_error E t) y x (fun r y' x' ev =>
      exists es, r = (true, es) /\ es <> [] /\ closing i y x TFailed (fun _ => false) es y' x' ev /\ EvTaskUpd i (t_id (ti_task x)) TFailed ∈ ev).
  Proof.
    intros Hi N Ht (le & Hle & Hty). apply loc_bind, loc_set_task_status, loc_bind, loc_coverage; [done..|]. intros ls0 ev0 Hls0 Fev0.
    unfold beh_error. apply loc_bind, loc_to_links; [done|]. intros ev1 F1. cbn [ti_task set_ti_status].
    apply loc_bti. cbn [ti_inst set_ti_status]. rewrite Hi. set (ls := t_to (ti_task x)) in *.
    assert (existsb is_error_link ls = true) as ->.
    { apply existsb_exists. exists le. split; [by apply elem_of_list_In|]. by apply bool_decide_eq_true. }
    apply loc_bind. apply loc_iter_set; [done|]. intros y1 ev2 H1 H2 H3 H4 H5. apply loc_bind, entries_loc.
    { intros p Hp. assert (p.1 ∈ ls) as Hl.
      { rewrite sort_perm in Hp. apply elem_of_list_fmap in Hp as (l & -> & Hl). done. }
      rewrite H3. by apply Ht. }
    intros r Hr. apply loc_ret. exists r. split; [done|].
    assert (forall l, fate TFailed ls (fun _ => false) l = if is_error_link l then LTrue else LFalse) as Hf by done.
    assert ((sort_entries ((fun l => (l, if is_error_link l then 0 else 4)) <$> ls)).*1
      = List.filter is_error_link ls ++ List.filter (fun l => negb (is_error_link l)) ls) as Hso.
    { rewrite sort_groups.
      2:{ apply Forall_fmap, Forall_forall. intros l _. cbn. destruct (is_error_link l); lia. }
      rewrite !fmap_app.
      assert (forall c P, (forall l, P l = ((if is_error_link l then 0 else 4) =? c)) ->
        (Done.at_ c ((fun l => (l, if is_error_link l then 0 else 4)) <$> ls)).*1 = List.filter P ls) as H.
      { clear. intros c P HP. induction ls as [|l ls IH]; [done|]. cbn [fmap list_fmap Done.at_ List.filter].
        rewrite (HP l). cbn [snd]. destruct (_ =? c); cbn; [f_equal|]; exact IH. }
      rewrite (H 0 is_error_link), (H 1 (fun _ => false)), (H 2 (fun _ => false)), (H 3 (fun _ => false)),
        (H 4 (fun l => negb (is_error_link l))); try (intros l; by destruct (is_error_link l)).
      assert (forall l : list link, List.filter (fun _ => false) l = []) as -> by (induction l; done). done. }
    split.
    { intros ->. apply Forall2_nil_inv_l in Hr. apply (f_equal length) in Hr. rewrite fmap_length, sort_perm, fmap_length in Hr.
      destruct ls; [by apply elem_of_nil in Hle|done]. }
    split; [|set_solver]. split.
    - by rewrite H3.
    - by rewrite H3.
    - by rewrite H3.
    - by rewrite H3.
    - by rewrite H3.
    - intros l Hl. by rewrite status_default, H1.
    - intros l Hl. rewrite status_default, H2 by done. cbn. rewrite !made_status. by rewrite status_default.
    - done.
    - exists (List.filter is_error_link ls). cbv zeta. fold ls.
      assert (List.filter (fun l => negb (fate TFailed ls (fun _ => false) l =? LTrue)) ls = List.filter (fun l => negb (is_error_link l)) ls) as ->.
      { apply List.filter_ext. intros l. by rewrite Hf, true_false. }
      rewrite <- Hso. split_and!; [by rewrite H3 in Hr| |].
      + rewrite sort_perm, <- list_fmap_compose. by rewrite list_fmap_id.
      + intros l Hl. apply elem_of_list_In, List.filter_In in Hl as [_ Hl]. by rewrite Hf, Hl.
    - cbn [app]. repeat (apply Forall_app; split); try (by apply side_close); [|by apply Forall_singleton; right; left].
      eapply Forall_impl; [exact H4|]. intros e [?|(l & Hl & ->)]; [by left|]. right; right; left. eexists l, _. split_and!; [done|done|by left].
    - intros l Hl. specialize (H5 l Hl). fold ls. rewrite Hf. set_solver.
    - done.
  Qed.
  Lemma closing_attrs y x z v es y' x' ev m a b : closing i y x z v es y' x' ev -> closing i y x z v es (set_i_attrs m y') x' (EvSet i a b :: ev).
  Proof.
    intros [H1 H2 H3 H4 H5 H6 H7 H8 H9 H10 H11 H12]. split; try done.
    - apply Forall_cons. split; [right; right; right; right; by exists a, b|done].
    - intros l Hl. right. by apply H11.
    - intros l Hz Hl Ht. right. by apply H12.
  Qed.
End Close.
