(** Finishing and entering tasks preserve the invariant of Whole.v (proofs; no Go counterpart). *)
From Verif Require Export Course.
Local Open Scope Z_scope.

Section Finish.
  Context (d : defn) (sync : mode) (calls_ok : Prop).
  Notation inv := (inv d sync calls_ok).
  Notation told := (told d calls_ok).

  (** A change that neither ends tasks nor decides links; instances of ended tasks may disappear, the
      flow may become completed. *)
  Lemma inv_touch cur K F V y s y' s' l :
    inv cur K F V y s -> s_insts s' !! 0%nat = Some y' ->
    (forall j, F !! j = None -> i_tasks y' !! j = i_tasks y !! j) ->
    (forall j u, i_tasks y' !! j = Some u -> i_tasks y !! j = Some u) ->
    i_def y' = i_def y -> i_handling y' = i_handling y -> (returns_not sync -> i_force y' = i_force y) ->
    i_status y' = i_status y \/
      (i_status y' = FCompleted /\ forall tk, tk ∈ d_tasks d -> F !! t_id tk = None -> ~ live V tk) ->
    (forall l, l ∈ d_links d -> F !! l_to l = None -> link_status y' l = link_status y l) ->
    (forall u x, s_tis s !! u = Some x -> exists x', s_tis s' !! u = Some x' /\ ti_inst x' = ti_inst x /\ ti_task x' = ti_task x /\ ti_status x' = ti_status x) ->
    (forall u, (s_nti s' <= u)%nat -> s_tis s' !! u = None) ->
    s_queue s' = s_queue s -> s_log s' = l ++ s_log s -> Forall (still cur) l ->
    inv cur K F V y' s'.
  Proof.
    intros I Hy' Ht1 Ht2 Hd Hh Hf Hst Hln Hti Hn Hq Hl Fl. split.
    - done.
    - rewrite Hd. apply I.
    - rewrite Hh. apply I.
    - intros Hs. rewrite Hf by done. by apply (iv_force _ _ _ _ _ _ _ _ _ I).
    - done.
    - apply I.
    - apply I.
    - apply I.
    - apply I.
    - intros l0 Hl0 H. rewrite Hln by done. by apply (iv_links _ _ _ _ _ _ _ _ _ I).
    - intros j u Hu. apply Ht2 in Hu. destruct (iv_reg _ _ _ _ _ _ _ _ _ I j u Hu) as (tk & x & H1 & H2 & H3 & H4 & H5 & H6 & H7).
      destruct (Hti u x H3) as (x' & G1 & G2 & G3 & G4). exists tk, x'. rewrite G2, G3, G4. done.
    - intros w u Hwu. rewrite Hq in Hwu. destruct (iv_queue _ _ _ _ _ _ _ _ _ I w u Hwu) as (j & x & H1 & H2 & H3 & H4 & H5).
      destruct (Hti u x H4) as (x' & G1 & G2 & G3 & G4). exists j, x'. rewrite Ht1, G4 by done. done.
    - rewrite Hq. apply I.
    - intros tk H1 H2 H3 H4 H5. destruct (iv_ready _ _ _ _ _ _ _ _ _ I tk H1 H2 H3 H4 H5) as (u & x & H6 & H7 & H8).
      destruct (Hti u x H7) as (x' & G1 & G2 & G3 & G4). exists u, x'. rewrite Ht1, Hq, G4 by done. done.
    - intros l0 tk H1 H2 H3 H4 H5. rewrite Ht1 by done. by apply (iv_seen _ _ _ _ _ _ _ _ _ I l0).
    - destruct Hst as [->|[-> _]]; [apply I|by right].
    - destruct Hst as [->|[-> H]]; [apply I|by intros _].
    - apply I.
    - intros tk H. destruct (iv_U1 _ _ _ _ _ _ _ _ _ I tk H) as (H1 & H2 & H3 & H4). split_and!; [done..|]. intros u x Hu Hx.
      rewrite Ht1 in Hu by done. destruct (iv_reg _ _ _ _ _ _ _ _ _ I _ u Hu) as (tk' & x' & _ & _ & H5 & _).
      destruct (Hti u x' H5) as (x2 & G1 & G2 & G3 & G4). rewrite Hx in G1. injection G1 as <-. rewrite G4. by apply (H4 u x').
    - eapply opairs_mono; [|apply I]. cbn beta. intros a b _ Hb [H1 H2]. split; [done|]. intros H3 H4. apply H2; [done|].
      rewrite Ht1 in H4; [done|]. by apply (iv_U1 _ _ _ _ _ _ _ _ _ I).
    - apply (told_still d calls_ok cur cur F V y s y' s' l); [apply I|by right|done|done|]. intros id u x HN Hc Hu Hx Hw.
      destruct (Hti u x Hx) as (x' & G1 & G2 & G3 & G4). exists u, x'. rewrite Ht1, G4 by done. done.
  Qed.

  Lemma link_ldel tk y (m : gmap string nat) l : l_id l ∉ l_id <$> t_from tk ->
    link_status (lmap (ldel (t_from tk)) (set_i_tasks m y)) l = link_status y l.
  Proof.
    intros Hl. rewrite !status_default. f_equal. cbn. generalize (i_links y). induction (t_from tk) as [|l0 ls IH]; intros mm; [done|].
    change (ldel (l0 :: ls) mm) with (ldel ls (delete (l_id l0) mm)).
    rewrite fmap_cons in Hl. rewrite IH by set_solver. apply lookup_delete_ne. set_solver.
  Qed.

  Context (G : graph_ok d) (AC : acyclic d) (NS : no_shortcut d) (PT : plain_tasks d).
  Context (E : env) (NC : e_conc E = false) (SO : settings_ok E) (C : cov_ok E) (L : links_ok E).
  Local Set Default Proof Using "Type*".

  Lemma inv_release K F V y s tk z t x :
    inv None K F V y s -> tk ∈ d_tasks d -> F !! t_id tk = Some z -> s_tis s !! t = Some x ->
    tot (release_task 0 tk) s (fun _ s' => exists y', inv None K F V y' s' /\ i_status y' = i_status y).
  Proof.
    intros I Htk HF Hx. eapply tot_mono.
    { apply (loc_run 0 t _ y x s (fun _ y' x' ev => y' = lmap (ldel (t_from tk)) (set_i_tasks (delete (t_id tk) (i_tasks y)) y) /\ x' = x /\
        ev = rev ((fun l => EvLinkDel 0 (l_id l)) <$> t_from tk) ++ [EvTaskDel 0 (t_id tk)])); [|apply I|done]. by apply loc_release. }
    intros [] s' (y' & x' & l & n & -> & -> & -> & ->). eexists. split.
    - eapply inv_touch; [exact I|apply put_inst|..].
      + intros j Hj. cbn. apply lookup_delete_ne. congruence.
      + intros j u. cbn. intros [_ H]%lookup_delete_Some. done.
      + done.
      + done.
      + done.
      + by left.
      + intros l Hl Hto. apply link_ldel. intros (l' & He & Hl')%elem_of_list_fmap. apply (g_from d G tk l' Htk) in Hl' as [Hl1 Hl2].
        rewrite (g_link_inj d G l l' Hl Hl1 He) in Hto. congruence.
      + intros u x0 Hx0. destruct (decide (u = t)) as [->|Hu]; [exists x; rewrite put_ti; by rewrite Hx in Hx0; injection Hx0 as <-|].
        exists x0. rewrite put_ti_ne by done. done.
      + intros u Hu. rewrite put_ti_ne; [by apply (iv_o _ _ _ _ _ _ _ _ _ I)|]. intros ->. by rewrite (iv_o _ _ _ _ _ _ _ _ _ I) in Hx.
      + done.
      + reflexivity.
      + apply Forall_app. split; [|by repeat constructor]. apply Forall_rev, Forall_fmap, Forall_forall. done.
    - done.
  Qed.

  Definition fin (F : gmap string Z) (y : inst) : Prop :=
    d_tasks d <> [] -> (forall tk, tk ∈ d_tasks d -> is_Some (F !! t_id tk)) -> i_status y = FCompleted.

  (** The outcome: the flow was ended by Return, or the invariant holds again. *)
  Definition good {A} (K : list task) (F : gmap string Z) (r : out A * st) : Prop :=
    (over r.2 /\ ~ returns_not sync) \/
    ((exists a, r.1 = Ok a) /\ exists F' V' y', F ⊆ F' /\ inv None K F' V' y' r.2 /\ fin F' y').
  Definition keeps (s s' : st) : Prop := (over s -> over s').

  Lemma good_bind {A B} K K' F (m : M A) (k : A -> M B) s :
    gn (good K F) m s ->
    (forall a s' F' V' y', m s = (Ok a, s') -> F ⊆ F' -> inv None K F' V' y' s' -> fin F' y' -> gn (good K' F') (k a) s') ->
    (forall a, op keeps (k a)) -> gn (good K' F) (bind m k) s.
  Proof.
    unfold gn, bind. intros Hm Hk Ho. destruct (m s) as [o s'] eqn:Hms. destruct Hm as [[H1 H2]|((a & Ha) & F' & V' & y' & H3 & H4 & H5)]; cbn in *.
    - left. destruct o as [a| | |]; cbn; try done. split; [|done]. by apply Ho.
    - subst o. destruct (Hk a s' F' V' y' eq_refl H3 H4 H5) as [?|(? & F2 & V2 & y2 & ? & ? & ?)]; [by left|right].
      split; [done|]. exists F2, V2, y2. split_and!; [|done..]. by etransitivity.
  Qed.

  (** All task instances that exist have ended. *)
  Lemma flow_done_tot s y (Q : bool -> st -> Prop) : s_insts s !! 0%nat = Some y ->
    (forall b, (b = true <-> forall j u x, i_tasks y !! j = Some u -> s_tis s !! u = Some x -> TDone <= ti_status x) -> Q b s) ->
    tot (flow_task_done 0) s Q.
  Proof.
    intros Hy H. unfold flow_task_done. apply tot_bind, tot_get. eapply tot_binst; [done|]. apply tot_ret, H. rewrite forallb_forall. split.
    - intros Hf j u x Hu Hx. apply elem_of_map_to_list, elem_of_list_In in Hu. specialize (Hf _ Hu). cbn in Hf. rewrite Hx in Hf. by apply Z.leb_le.
    - intros Hf (j & u) Hu. apply elem_of_list_In, elem_of_map_to_list in Hu. cbn. destruct (s_tis s !! u) as [x|] eqn:Hx; [|done].
      apply Z.leb_le. by apply (Hf j u x).
  Qed.

  (** A live task that has not ended exists and keeps the flow from completing. *)
  Lemma live_blocks K F V y s tk :
    inv None K F V y s -> (forall k, k ∈ K -> live V k -> is_Some (i_tasks y !! t_id k)) -> tk ∈ d_tasks d -> F !! t_id tk = None -> live V tk ->
    (forall j u x, i_tasks y !! j = Some u -> s_tis s !! u = Some x -> TDone <= ti_status x) -> False.
  Proof.
    intros I Hnew Htk HF Hl Hall.
    assert (is_Some (i_tasks y !! t_id tk)) as [u Hu].
    { assert (forall P : Prop, (tk ∈ K -> P) -> (tk ∉ K -> P) -> ~ ~ P) as Hem by (intros P H1 H2 Hn; apply Hn, H2; intros ?; by apply Hn, H1).
      assert (is_Some (i_tasks y !! t_id tk) \/ i_tasks y !! t_id tk = None) as [?|HN]; [destruct (i_tasks y !! t_id tk); [left; eauto|by right]|done|].
      exfalso. apply (Hem False); [| |tauto].
      - intros HK. destruct (Hnew tk HK Hl) as [u Hu]. congruence.
      - intros HK. destruct Hl as [Hnil|(l & Hl & HV)].
        + destruct (iv_ready _ _ _ _ _ _ _ _ _ I tk Htk HF) as (u & _ & Hu & _); [done| |done|congruence]. intros l. rewrite Hnil. by intros ?%elem_of_nil.
        + destruct (iv_seen _ _ _ _ _ _ _ _ _ I l tk Htk Hl HV HF HK) as [u Hu]. congruence. }
    destruct (iv_reg _ _ _ _ _ _ _ _ _ I _ u Hu) as (tk' & x & _ & _ & Hx & _ & _ & _ & H7).
    specialize (Hall _ _ _ Hu Hx). destruct (H7 HF) as [Hs|([Hs|[Hs _]] & _)]; [done|rewrite Hs in Hall; by vm_compute in Hall..].
  Qed.

  (** What handleTaskDone does after the transition: complete the flow or enter the successors;
      release the task. *)
  Lemma after_close (ent : nat -> list entry -> M (option err)) tk t x z K F V es y s :
    inv None (es.*1 ++ K) F V y s -> tk ∈ d_tasks d -> F !! t_id tk = Some z -> s_tis s !! t = Some x ->
    (t_to tk = [] -> es = []) -> (t_to tk <> [] -> es <> []) ->
    (forall k, k ∈ K -> live V k -> is_Some (i_tasks y !! t_id k)) ->
    (inv None (es.*1 ++ K) F V y s -> fin F y -> gn (good K F) (ent 0%nat es) s) ->
    op keeps (ent 0%nat es) -> op wd_kept (ent 0%nat es) ->
    gn (good K F)
      (fd <- (if bool_decide (t_to tk = []) then flow_task_done 0 else ret false);
       y <- get_inst 0;
       (if fd || i_force y then complete_flow E 0 else ent 0%nat es ;; ret tt) ;;
       release_task 0 tk) s.
  Proof.
    intros I Htk HF Hx He1 He2 Hnew Hent Hop Hwd.
    assert (Ox := ops_over). assert (Ow := ops_wd).
    apply gn_bind.
    assert (forall b, (b = true -> (forall j u x, i_tasks y !! j = Some u -> s_tis s !! u = Some x -> TDone <= ti_status x) /\ es = []) ->
      (b = false -> t_to tk = [] -> ~ (forall j u x, i_tasks y !! j = Some u -> s_tis s !! u = Some x -> TDone <= ti_status x)) ->
      gn (good K F) (y <- get_inst 0; (if b || i_force y then complete_flow E 0 else ent 0%nat es ;; ret tt) ;; release_task 0 tk) s) as Hgo.
    2:{ case_bool_decide as Hto.
        - apply (flow_done_tot s y); [apply I|]. intros b Hb. apply Hgo; [intros ->; split; [by apply Hb|by apply He1]|]. intros -> _ H. by apply Hb in H.
        - apply tot_ret. by apply Hgo. }
    intros b Hb1 Hb2. eapply gn_binst; [apply I|].
    destruct b; cbn [orb].
    - (* completed *)
      destruct (Hb1 eq_refl) as [Hall ->]. cbn [app fmap list_fmap] in I. change (@nil task ++ K) with K in I.
      assert (forall k, k ∈ d_tasks d -> F !! t_id k = None -> ~ live V k) as Hnl by (intros k Hk HN Hl; by apply (live_blocks K F V y s k)).
      unfold complete_flow. cbn [Nat.eqb]. apply gn_bind.
      eapply tot_mono.
      { apply (loc_run 0 t _ y x s (fun _ y' x' ev => y' = posted E FCompleted (set_i_status FCompleted y) /\ x' = x /\
          ev = [EvFlowDone] ++ notice E 0%nat (set_i_status FCompleted y) ++ [EvFlowStatus 0 FCompleted])); [|apply I|done]. by apply loc_bind, loc_set_flow_status, loc_log. }
      intros [] s1 (y1 & x1 & l & n & -> & -> & -> & ->).
      destruct (posted_fields E FCompleted (set_i_status FCompleted y)) as (_ & P1 & P2 & P3 & P4 & P5 & P6 & _).
      set (y2 := posted E FCompleted (set_i_status FCompleted y)) in *.
      assert (inv None K F V y2 (put 0 t y2 x ([EvFlowDone] ++ notice E 0%nat (set_i_status FCompleted y) ++ [EvFlowStatus 0 FCompleted]) n s)) as I2.
      { eapply inv_touch; [exact I|apply put_inst|by rewrite P4|by rewrite P4|by rewrite P3|by rewrite P1|by rewrite P6| | | | | |reflexivity|constructor; [done|]; apply Forall_app; split; [apply Forall_forall; by intros e (? & ? & ? & ->)%notice_in|by repeat constructor]].
        - right. split; [by rewrite P2|done].
        - intros l _ _. by rewrite !status_default, P5.
        - intros u x0 Hx0. destruct (decide (u = t)) as [->|Hu]; [exists x; rewrite put_ti; by rewrite Hx in Hx0; injection Hx0 as <-|].
          exists x0. rewrite put_ti_ne by done. done.
        - intros u Hu. rewrite put_ti_ne; [by apply (iv_o _ _ _ _ _ _ _ _ _ I)|]. intros ->. by rewrite (iv_o _ _ _ _ _ _ _ _ _ I) in Hx.
        - done. }
      destruct (inv_release K F V _ _ tk z t x I2 Htk HF (put_ti _ _ _ _ _ _ _)) as (a & s2 & Hr & y3 & I3 & Hs3).
      unfold gn. rewrite Hr. right. split; [by exists a|]. exists F, V, y3. split_and!; [done|done|]. intros _ _. by rewrite Hs3, P2.
    - destruct (i_force y) eqn:Hforce.
      + (* ended by Return *)
        left. split; [|intros Hs; by rewrite (iv_force _ _ _ _ _ _ _ _ _ I Hs) in Hforce].
        unfold complete_flow. cbn [Nat.eqb].
        assert (tot (set_flow_status E 0 FCompleted) s (fun _ s' => over s')) as Hov0.
        { eapply tot_set_flow_status; [apply I|]. destruct (posted_fields E FCompleted (set_i_status FCompleted y)) as (_ & _ & P2 & _).
          eexists. unfold p_fstat. cbn. rewrite <- alter_compose, lookup_alter, (iv_y _ _ _ _ _ _ _ _ _ I). split; [reflexivity|]. cbn. by rewrite P2. }
        destruct (tot_run _ _ _ Hov0) as (a & Ha & Hov).
        assert (op keeps (log_ev EvFlowDone ;; release_task 0 tk)) as Ho.
        { apply (op_bind _ Ox); [by apply (op_log _ Ox)|]. intros _. by apply (op_release _ Ox). }
        unfold bind in *. destruct (set_flow_status E 0 FCompleted s) as [o s1]. cbn in Ha, Hov. subst o.
        specialize (Ho s1 Hov). unfold bind in Ho. destruct (log_ev EvFlowDone s1) as [[] s2]; exact Ho.
      + (* go on *)
        assert (fin F y) as Hfin.
        { intros _ Hall. exfalso. destruct (decide (t_to tk = [])) as [Hto|Hto].
          - apply (Hb2 eq_refl Hto). intros j u x0 Hu Hx0. destruct (iv_reg _ _ _ _ _ _ _ _ _ I j u Hu) as (tk' & x1 & H1 & H2 & H3 & _ & _ & H6 & _).
            rewrite Hx0 in H3. injection H3 as <-. apply H6. rewrite <- H2. by apply Hall.
          - destruct es as [|e es']; [by apply He2|]. destruct (iv_U1 _ _ _ _ _ _ _ _ _ I e.1) as (H1 & H2 & _); [left|].
            destruct (Hall _ H1) as [? ?]. congruence. }
        eapply (good_bind K K F (ent 0%nat es ;; ret tt)).
        * eapply (good_bind K); [by apply Hent| |intros; by apply (op_ret _ Ox)].
          intros a s' F' V' y' Hs' Hsub I' Hf'. right. split; [by exists tt|]. by exists F', V', y'.
        * intros [] s' F' V' y' Hms Hsub I' Hf'.
          assert (exists x', s_tis s' !! t = Some x') as [x' Hx'].
          { assert (wd_kept s s') as [_ Hk].
            { assert (op wd_kept (ent 0%nat es ;; ret tt)) as H by (apply (op_bind _ Ow); [done|intros; by apply (op_ret _ Ow)]).
              specialize (H s). by rewrite Hms in H. }
            destruct (Hk t x) as (x' & Hx' & _); [|done|eauto]. destruct (decide (t < s_nti s)%nat) as [|Hge]; [done|].
            rewrite (iv_o _ _ _ _ _ _ _ _ _ I) in Hx by lia. done. }
          destruct (inv_release K F' V' y' s' tk z t x' I' Htk) as (a & s2 & Hr & y3 & I3 & Hs3); [by eapply lookup_weaken|done|].
          unfold gn. rewrite Hr. right. split; [by exists a|]. exists F', V', y3. split_and!; [done|done|].
          intros H1 H2. rewrite Hs3. by apply Hf'.
        * intros _. by apply (op_release _ Ox).
  Qed.
  Definition count (F : gmap string Z) : nat := length (List.filter (fun tk => bool_decide (F !! t_id tk = None)) (d_tasks d)).
  Lemma filter_le {A} (P Q : A -> bool) l : (forall a, a ∈ l -> P a = true -> Q a = true) -> (length (List.filter P l) <= length (List.filter Q l))%nat.
  Proof.
    induction l as [|a l IH]; intros H; cbn; [done|]. specialize (IH ltac:(intros b Hb; apply H; by right)).
    destruct (P a) eqn:HP; [rewrite (H a ltac:(left) HP); cbn; lia|]. destruct (Q a); cbn; lia.
  Qed.
  Lemma filter_lt {A} (P Q : A -> bool) l a : (forall a, a ∈ l -> P a = true -> Q a = true) -> a ∈ l -> P a = false -> Q a = true ->
    (length (List.filter P l) < length (List.filter Q l))%nat.
  Proof.
    induction l as [|b l IH]; intros H Ha Hp Hq; [by apply elem_of_nil in Ha|]. cbn.
    assert (forall a, a ∈ l -> P a = true -> Q a = true) as H' by (intros c Hc; apply H; by right).
    apply elem_of_cons in Ha as [<-|Ha].
    - rewrite Hp, Hq. cbn. pose proof (filter_le P Q l H'). lia.
    - specialize (IH H' Ha Hp Hq). destruct (P b) eqn:HP; [rewrite (H b ltac:(left) HP); cbn; lia|]. destruct (Q b); cbn; lia.
  Qed.
  Lemma count_le F F' : F ⊆ F' -> (count F' <= count F)%nat.
  Proof.
    intros Hs. apply filter_le. intros tk _ H. apply bool_decide_eq_true in H. apply bool_decide_eq_true.
    destruct (F !! t_id tk) as [z|] eqn:HF; [|done]. rewrite (lookup_weaken _ _ _ _ HF Hs) in H. done.
  Qed.
  Lemma count_lt F tk z : tk ∈ d_tasks d -> F !! t_id tk = None -> (count (<[t_id tk := z]> F) < count F)%nat.
  Proof.
    intros Htk HF. apply (filter_lt _ _ _ tk); [|done|by rewrite lookup_insert|by rewrite HF]. intros k _ H. apply bool_decide_eq_true in H.
    apply bool_decide_eq_true. by apply lookup_insert_None in H as [? _].
  Qed.
  Lemma good_mono {A} K F F' (r : out A * st) : F ⊆ F' -> good K F' r -> good K F r.
  Proof.
    intros Hs [?|(H & F2 & V2 & y2 & H1 & H2 & H3)]; [by left|right]. split; [done|]. exists F2, V2, y2. split_and!; [by etransitivity|done|done].
  Qed.

  Lemma decision_ge z : decision z -> LFalse <= z.
  Proof. intros [->|[->| ->]]; by vm_compute. Qed.
  (** The verdict on a task in terms of the links decided so far. *)
  Lemma verdict_is cur K F V y s tk : inv cur K F V y s -> tk ∈ d_tasks d -> F !! t_id tk = None ->
    match verdict y tk with
    | None => ~ ready F tk
    | Some false => ready F tk /\ live V tk
    | Some true => ready F tk /\ ~ live V tk
    end.
  Proof.
    intros I Htk HF.
    assert (forall l, l ∈ t_from tk -> link_status y l = default LUnset (V !! l_id l) /\ l ∈ d_links d) as Hs.
    { intros l Hl. apply (g_from d G tk l Htk) in Hl as [Hl1 Hl2]. split; [|done]. apply (iv_links _ _ _ _ _ _ _ _ _ I); [done|congruence]. }
    assert (forall l, l ∈ t_from tk -> LFalse <= link_status y l -> is_Some (F !! l_from l)) as Hr.
    { intros l Hl H. destruct (Hs l Hl) as [He Hl1]. apply (iv_V _ _ _ _ _ _ _ _ _ I l Hl1). rewrite He in H. destruct (V !! l_id l); [by eexists|]. by vm_compute in H. }
    assert (forall l, l ∈ t_from tk -> link_status y l = LTrue <-> V !! l_id l = Some LTrue) as Ht.
    { intros l Hl. destruct (Hs l Hl) as [-> _]. destruct (V !! l_id l) as [z|]; cbn; split; intros H; try done; congruence. }
    destruct (verdict y tk) as [[]|] eqn:Hv.
    - apply verdict_skip in Hv as [Hn Hv]. split; [intros l Hl; apply Hr; [done|by apply Hv]|]. intros [?|(l & Hl & HV)]; [done|].
      apply (Hv l Hl). by apply Ht.
    - apply verdict_run in Hv as [Hv1 Hv2]. split; [intros l Hl; apply Hr; [done|by apply Hv1]|]. destruct Hv2 as [?|(l & Hl & HV)]; [by left|].
      right. exists l. split; [done|]. by apply Ht.
    - apply verdict_wait in Hv as (l & Hl & Hlt). intros Hrd. destruct (Hs l Hl) as [He Hl1].
      destruct (proj2 (iv_V _ _ _ _ _ _ _ _ _ I l Hl1) (Hrd l Hl)) as [z Hz]. rewrite He, Hz in Hlt. cbn in Hlt.
      pose proof (decision_ge z (iv_Vz _ _ _ _ _ _ _ _ _ I _ _ Hz)). lia.
  Qed.
  Lemma enter_still cur id z l : Forall (enter_ev 0 id z) l -> (ends z -> cur = Some id) -> Forall (still cur) l.
  Proof.
    intros Fl Hz. eapply Forall_impl; [exact Fl|]. intros e [H|[->|[->| ->]]]; cbn; [|done| |done].
    - destruct e; cbn in *; try done.
    - by intros [?|[?|?]].
  Qed.

  (** A task without followed link into it is skipped. *)
  Lemma skip_good ent tk K F V t y s s1 :
    inv None (tk :: K) F V y s -> enters 0 y tk t TSkipped s s1 -> verdict y tk = Some true ->
    (forall es K F' V' y' s', (count F' < count F)%nat -> inv None (es.*1 ++ K) F' V' y' s' -> fin F' y' -> gn (good K F') (ent 0%nat es) s') ->
    (forall es, op keeps (ent 0%nat es)) -> (forall es, op wd_kept (ent 0%nat es)) ->
    gn (good K F) (handle_task_done E ent t) s1.
  Proof.
    intros I N Hv Hent Hop Hwd.
    destruct (enter_facts_ok d sync calls_ok G AC NS _ _ _ _ _ _ _ _ _ I N) as [Htk HF Hin Ho Hoth (x & Hx & Hxi & Hxt & Hxs) Htq Hentd Hev Hnout HK].
    pose proof (verdict_is _ _ _ _ _ _ _ I Htk HF) as Hvd. rewrite Hv in Hvd. destruct Hvd as [Hrd Hnl].
    destruct (en_log _ _ _ _ _ _ _ N) as (l & Hl & Fl & Hupd).
    assert (inv (Some (t_id tk)) K F V (entered_inst tk t y) s1) as I1.
    { eapply (inv_enter d sync calls_ok G AC NS tk K F V t TSkipped _ [] y s s1 s1 l I N); [right; right; done|done|done|by exists x| |done|done|].
      - by rewrite app_nil_r, (en_queue _ _ _ _ _ _ _ N).
      - by apply (enter_still _ (t_id tk) TSkipped). }
    set (y1 := entered_inst tk t y) in *.
    unfold handle_task_done. eapply gn_bti; [exact Hx|]. cbv zeta. rewrite Hxi, Hxt. rewrite bool_decide_true by done.
    eapply (gn_loc _ 0 t); [apply I1|exact Hx|]. apply loc_bind. eapply loc_mono.
    { apply (loc_close_skip E 0 t C L); [done| |].
      - rewrite Hxt. by apply (g_to_nodup d G).
      - intros l0 Hl0. rewrite Hxt in Hl0. apply (g_to d G tk l0 Htk) in Hl0 as [Hl0 _]. destruct (g_target d G l0 Hl0) as (e & He & _).
        exists e. by rewrite (iv_d _ _ _ _ _ _ _ _ _ I1). }
    intros r y2 x2 ev (es & -> & CL & Hup). apply loc_ret. intros n. cbn [fst snd]. rewrite Hxt.
    assert (t_id (ti_task x) = t_id tk) as Hid by (by rewrite Hxt). rewrite Hid in Hup.
    assert (inv None (es.*1 ++ K) (<[t_id tk := TSkipped]> F) (decided tk TSkipped (fun _ => false) V) y2 (put 0 t y2 x2 ev n s1)) as I2.
    { assert (evaluations s1 = evaluations s) as He1.
      { apply (evaluations_eq s s1 l Hl). intros i j ins it H. rewrite Forall_forall in Fl. destruct (Fl _ H) as [?|[?|[?|?]]]; done. }
      destruct (iv_U2 _ _ _ _ _ _ _ _ _ I) as [HU2 _].
      eapply (inv_close d sync calls_ok G AC NS tk K F V t TSkipped (fun _ => false) es (Some (t_id tk)) y1 x y2 x2 ev n s1 I1 eq_refl Htk);
        [apply lookup_insert|done|done|done|done| | |done|by right; left|done|split; done|by left| |by rewrite He1|done| |done].
      - intros k Hk. destruct (HU2 k Hk) as [[?|?] _]; done.
      - intros k Hk Hlk. destruct (i_tasks y1 !! t_id k) as [u|] eqn:Hu; [by eexists|]. exfalso. destruct (HU2 k Hk) as [_ H]. apply Hnl, H; [done|].
        cbn [y1 entered_inst i_tasks set_i_tasks] in Hu. rewrite lookup_insert_ne in Hu; [done|]. by apply not_eq_sym, (HK k Hk).
      - intros z' Hz' H. rewrite Hl in H. apply elem_of_app in H as [H|H].
        + rewrite Forall_forall in Fl. destruct (Fl _ H) as [[]|[?|[[= ->]|[= ->]]]]; [done| |done]. by destruct Hz' as [?|[?|?]].
        + pose proof (to_upd _ _ _ _ _ _ _ (iv_told _ _ _ _ _ _ _ _ _ I) _ _ Hz' ltac:(done) H). congruence.
      - intros Hc o H. exfalso. rewrite Hl in H. apply elem_of_app in H as [H|H]; [|by apply (Hnout o Hc)].
        rewrite Forall_forall in Fl. destruct (Fl _ H) as [?|[?|[?|?]]]; done. }
    assert (forall k, k ∈ K -> live (decided tk TSkipped (fun _ => false) V) k -> is_Some (i_tasks y2 !! t_id k)) as Hnew.
    { intros k Hk Hlk. destruct (i_tasks y2 !! t_id k) as [u|] eqn:Hu; [by eexists|]. exfalso.
      destruct (iv_U2 _ _ _ _ _ _ _ _ _ I) as [HU2 _]. destruct (HU2 k Hk) as [_ H]. apply Hnl, H.
      - destruct Hlk as [?|(l0 & Hl0 & HV)]; [by left|]. right. exists l0. split; [done|].
        destruct (decide (l_id l0 ∈ l_id <$> t_to tk)) as [(l1 & He & Hl1)%elem_of_list_fmap|Hn].
        + rewrite He, (decided_in d G AC NS tk TSkipped _ V l1 Htk Hl1) in HV. done.
        + by rewrite decided_out in HV.
      - rewrite (cl_tasks _ _ _ _ _ _ _ _ _ CL) in Hu. cbn [y1 entered_inst i_tasks set_i_tasks] in Hu. rewrite lookup_insert_ne in Hu; [done|].
        by apply not_eq_sym, (HK k Hk). }
    apply (good_mono K F (<[t_id tk := TSkipped]> F)); [by apply insert_subseteq|].
    eapply (after_close ent tk t x2 TSkipped); [exact I2|done|apply lookup_insert|apply put_ti| | |exact Hnew| |done|done].
    - intros Hto. destruct (cl_es _ _ _ _ _ _ _ _ _ CL) as (A & Hf & Hp & _). cbv zeta in *. rewrite Hxt, Hto in Hp, Hf. apply Permutation_nil_r in Hp.
      rewrite Hp in Hf. by apply Forall2_nil_inv_r in Hf.
    - intros Hto ->. destruct (cl_es _ _ _ _ _ _ _ _ _ CL) as (A & Hf & Hp & _). cbv zeta in *. rewrite Hxt in Hp, Hf. apply Forall2_nil_inv_l in Hf.
      rewrite Hf in Hp. apply Permutation_nil_l in Hp. congruence.
    - intros I3 Hf3. eapply (Hent es K); [by apply count_lt|exact I3|exact Hf3].
  Qed.

  Lemma enter_tasks_good n : forall es K F V y s, (count F <= n)%nat -> inv None (es.*1 ++ K) F V y s -> fin F y ->
    gn (good K F) (enter_tasks E n 0 es) s.
  Proof.
    induction n as [n IHn] using lt_wf_ind. intros es K F V y s Hc I Hf.
    assert (forall skip, (skip = fun t => match n with O => out_of_fuel | S n' => handle_task_done E (enter_tasks E n') t end) ->
      gn (good K F) (enter_list E skip 0 es) s) as H.
    2:{ specialize (H _ eq_refl). destruct n; cbn [enter_tasks]; unfold with_lock; rewrite NC; exact H. }
    intros skip Hskip.
    assert (Ox := ops_over). assert (Ow := ops_wd).
    assert (forall t, op keeps (skip t)) as Hsk.
    { intros t. rewrite Hskip. destruct n; [by apply (op_fuel _ Ox)|]. apply (op_done _ _ Ox). intros. by apply (op_enter_tasks _ _ Ox). }
    revert K F V y s Hc I Hf. induction es as [|[tk c] es IHes]; intros K F V y s Hc I Hf.
    - right. split; [by exists None|]. exists F, V, y. done.
    - cbn [app fmap list_fmap fst] in I. change (inv None (tk :: (es.*1 ++ K)) F V y s) in I.
      destruct (iv_U1 _ _ _ _ _ _ _ _ _ I tk ltac:(left)) as (Htk & HF & _ & Hentd).
      pose proof (verdict_is _ _ _ _ _ _ _ I Htk HF) as Hvd.
      apply (enter_one E NC SO skip 0 tk c es s y).
      + apply I.
      + by apply PT, g_tasks.
      + intros u Hu. destruct (iv_reg _ _ _ _ _ _ _ _ _ I _ u Hu) as (tk' & x & H1 & H2 & H3 & H4 & H5 & _).
        exists x. split_and!; [done|done|]. rewrite H5. by apply (g_task_inj d G).
      + intros t s1 Hv N. rewrite Hv in Hvd. destruct (en_log _ _ _ _ _ _ _ N) as (l & Hl & Fl & Hupd).
        destruct (enter_facts_ok d sync calls_ok G AC NS _ _ _ _ _ _ _ _ _ I N) as [_ _ _ _ _ Hxx _ _ _ _ _].
        apply (IHes K F V (entered_inst tk t y) s1); [done| |done].
        eapply (inv_enter d sync calls_ok G AC NS tk _ F V t TEntered _ [] y s s1 s1 l I N); [by left|done|done|done| |done|done|].
        * by rewrite app_nil_r, (en_queue _ _ _ _ _ _ _ N).
        * apply (enter_still _ (t_id tk) TEntered); [done|]. by intros [?|[?|?]].
      + intros t s1 s2 Hv N Q. rewrite Hv in Hvd. destruct (en_log _ _ _ _ _ _ _ N) as (l & Hl & Fl & Hupd).
        destruct (enter_facts_ok d sync calls_ok G AC NS _ _ _ _ _ _ _ _ _ I N) as [_ _ _ _ _ (x1 & Hx1 & G1 & G2 & G3) _ _ _ _ _].
        destruct (eq_tis _ _ _ _ _ Q) as (x & x' & Hx & Htis & Hxi & Hxt & Hxs & _). rewrite Hx1 in Hx. injection Hx as <-.
        apply (IHes K F V (entered_inst tk t y) s2); [done| |done].
        eapply (inv_enter d sync calls_ok G AC NS tk _ F V t TReady _ [(S (s_wictr s1), t)] y s s1 s2 (_ :: l) I N).
        * right; left. split_and!; [done|by eexists|done|apply Hvd..].
        * by rewrite (eq_insts _ _ _ _ _ Q).
        * intros u Hu. rewrite Htis. by rewrite lookup_insert_ne.
        * exists x'. rewrite Htis, lookup_insert. split_and!; congruence.
        * by rewrite (eq_queue _ _ _ _ _ Q), (en_queue _ _ _ _ _ _ _ N).
        * by rewrite (eq_nti _ _ _ _ _ Q).
        * rewrite (eq_log _ _ _ _ _ Q), Hl. reflexivity.
        * apply Forall_cons. split; [done|]. apply (enter_still _ (t_id tk) TReady); [done|]. by intros [?|[?|?]].
      + intros t s1 Hv N. assert (count F <> 0%nat) as Hpos by (pose proof (count_lt F tk TSkipped Htk HF); lia).
        destruct n as [|n']; [lia|].
        eapply (good_bind (es.*1 ++ K)).
        * rewrite Hskip. eapply skip_good; [exact I|exact N|done| | |].
          -- intros es' K' F' V' y' s' Hlt I' Hf'. apply (IHn n' ltac:(lia) es' K' F' V' y' s'); [lia|done|done].
          -- intros es'. by apply (op_enter_tasks _ _ Ox).
          -- intros es'. by apply (op_enter_tasks _ _ Ow).
        * intros a s' F' V' y' _ Hsub I' Hf'. apply (IHes K F' V' y' s'); [|done|done]. pose proof (count_le F F' Hsub). lia.
        * intros _. by apply (op_enter_list _ _ Ox).
  Qed.
  Lemma enter_top_good es K F V y s : inv None (es.*1 ++ K) F V y s -> fin F y -> gn (good K F) (enter_top E 0 es) s.
  Proof.
    intros I Hf. unfold enter_top. eapply gn_binst; [apply I|]. apply (enter_tasks_good _ es K F V y s); [|done|done].
    rewrite (iv_d _ _ _ _ _ _ _ _ _ I). unfold all_tasks. rewrite app_length. unfold count.
    pose proof (filter_le (fun tk => bool_decide (F !! t_id tk = None)) (fun _ => true) (d_tasks d) ltac:(done)) as H.
    rewrite (filter_all (fun _ => true)) in H by done. lia.
  Qed.
End Finish.
