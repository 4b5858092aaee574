(** What a listener is told about flows: that it is so in every state. No Go counterpart (proof infrastructure). *)
From Verif Require Export Values SpecTold ConcProofs.
Local Open Scope Z_scope.

(** The events do not concern values or statuses, nor what is returned. *)
Definition idle_ev (e : event) : bool :=
  match e with EvSet _ _ _ | EvFlowStatus _ _ | EvFlowEvent _ _ _ _ _ => false | _ => true end.

Lemma changes_app l l' : changes (l ++ l') = changes l ++ changes l'.
Proof. apply omap_app. Qed.
Lemma notices_app l l' : notices (l ++ l') = notices l ++ notices l'.
Proof. apply omap_app. Qed.
Lemma offered_mono i d k l l' : offered i d k l -> offered i d k (l ++ l').
Proof.
  intros [H|(r & e & v & [H|H] & Hv)]; [by left|right; exists r, e, v; split; [|done]..]; [left|right]; apply elem_of_app; by left.
Qed.
Lemma offered_perm i d k l l' : (forall e, e ∈ l -> e ∈ l') -> offered i d k l -> offered i d k l'.
Proof. intros Hl [H|(r & e & v & H & Hv)]; [by left|]. right. exists r, e, v. split; [|done]. destruct H as [H|H]; auto. Qed.

Section Told.
  Context (E : env).

  Definition told (s : st) : Prop :=
    (forall j, (s_sfctr s < j)%nat -> s_insts s !! j = None) /\
    (forall i k, attr_of s i k = last (assigned i k (trace s))) /\
    (forall i y r k v, s_insts s !! i = Some y -> i_rdata y = Some r -> r !! k = Some v -> offered i (i_def y) k (trace s)) /\
    notices (trace s) = (if e_listener E then changes (trace s) else []) /\
    (forall l1 i z ins outs e l2, trace s = l1 ++ EvFlowEvent i z ins outs e :: l2 ->
       exists y, s_insts s !! i = Some y /\ faithful i (i_def y) z ins outs e l1).

  Definition tl {A} (m : M A) : Prop := forall s, told s -> told (m s).2.

  (** *** Rules *)
  (** Instances keep what matters here. *)
  Definition alike (s s' : st) : Prop := s_sfctr s' = s_sfctr s /\
    (forall i, match s_insts s' !! i, s_insts s !! i with
       | Some y', Some y => i_attrs y' = i_attrs y /\ i_def y' = i_def y | None, None => True | _, _ => False end).
  Lemma alike_attr s s' i k : alike s s' -> attr_of s' i k = attr_of s i k.
  Proof. intros [_ H]. specialize (H i). unfold attr_of. destruct (s_insts s' !! i), (s_insts s !! i); try done. cbn. by destruct H as [-> _]. Qed.
  Lemma split_snoc {A} (l : list A) a l1 e l2 : l ++ [a] = l1 ++ e :: l2 -> (l2 = [] /\ l1 = l /\ e = a) \/ (exists l2', l2 = l2' ++ [a] /\ l = l1 ++ e :: l2').
  Proof.
    destruct l2 as [|b l2 _] using rev_ind.
    - intros [-> [= ->]]%app_inj_tail. by left.
    - intros H. right. exists l2. change (l1 ++ e :: l2 ++ [b]) with (l1 ++ ([e] ++ l2) ++ [b]) in H. rewrite !app_assoc in H.
      apply app_inj_tail in H as [-> ->]. split; [done|]. by rewrite <- app_assoc.
  Qed.
  Lemma told_alike l s s' : alike s s' -> s_log s' = l ++ s_log s -> forallb idle_ev l = true -> told s ->
    (forall i y r k v, s_insts s' !! i = Some y -> i_rdata y = Some r -> r !! k = Some v -> offered i (i_def y) k (trace s')) -> told s'.
  Proof.
    intros Ha Hl Hi (H1 & H2 & _ & H4 & H5) H3. apply trace_logs in Hl.
    assert (forall i k, assigned i k (rev l) = []) as Ga.
    { intros i k. apply assigned_none, Forall_rev. clear Hl. induction l as [|e l IH]; [done|]. cbn in Hi. apply andb_true_iff in Hi as [He Hi].
      constructor; [by destruct e|by apply IH]. }
    assert (forall e, e ∈ rev l -> idle_ev e = true) as Gi.
    { intros e He. rewrite elem_of_list_In, <- in_rev in He. rewrite forallb_forall in Hi. by apply Hi. }
    assert (notices (rev l) = [] /\ changes (rev l) = []) as [Gn Gc].
    { clear -Gi. induction (rev l) as [|e r IH]; [done|]. assert (idle_ev e = true) as He by (apply Gi; left). destruct IH as [IH1 IH2]; [intros; apply Gi; by right|].
      unfold notices, changes in *. by destruct e. }
    split_and!.
    - intros j Hj. destruct Ha as [Hs Ha]. rewrite Hs in Hj. specialize (H1 _ Hj). specialize (Ha j). rewrite H1 in Ha. by destruct (s_insts s' !! j).
    - intros i k. by rewrite (alike_attr _ _ _ _ Ha), Hl, assigned_app, Ga, app_nil_r.
    - done.
    - rewrite Hl, notices_app, changes_app, Gn, Gc, !app_nil_r. done.
    - rewrite Hl. clear Hl Hi Ga Gn Gc H1 H2 H3 H4. induction (rev l) as [|a r IH] using rev_ind; intros l1 i z ins outs e l2 Hl.
      + rewrite app_nil_r in Hl. destruct (H5 _ _ _ _ _ _ _ Hl) as (y & Hy & Hf). destruct Ha as [_ Ha]. specialize (Ha i).
        rewrite Hy in Ha. destruct (s_insts s' !! i) as [y'|]; [|done]. destruct Ha as [_ Hd]. exists y'. by rewrite Hd.
      + rewrite app_assoc in Hl. apply split_snoc in Hl as [(-> & -> & <-)|(l2' & -> & Hl)].
        * assert (idle_ev (EvFlowEvent i z ins outs e) = true) by (apply Gi, elem_of_app; right; left). done.
        * eapply IH; [|done]. intros e' He'. apply Gi, elem_of_app. by left.
  Qed.

  Lemma tl_ret {A} (a : A) : tl (ret a).
  Proof. by intros s H. Qed.
  Lemma tl_panic {A} m : tl (panic (A:=A) m).
  Proof. by intros s H. Qed.
  Lemma tl_fuel {A} : tl (out_of_fuel (A:=A)).
  Proof. by intros s H. Qed.
  Lemma tl_get : tl get.
  Proof. by intros s H. Qed.
  Lemma tl_bind {A B} (m : M A) (k : A -> M B) : tl m -> (forall a, tl (k a)) -> tl (bind m k).
  Proof. intros Hm Hk s Hs. specialize (Hm s Hs). unfold bind. destruct (m s) as [[a|e| |] s1]; [by apply Hk|done..]. Qed.
  Lemma tl_catch {A} (m : M A) h : tl m -> (forall e, tl (h e)) -> tl (catch m h).
  Proof. intros Hm Hk s Hs. specialize (Hm s Hs). unfold catch. destruct (m s) as [[a|e| |] s1]; [done|by apply Hk|done..]. Qed.
  Lemma tl_finally {A} (m : M A) f : tl m -> tl f -> tl (finally m f).
  Proof.
    intros Hm Hf. unfold finally. apply tl_bind.
    - apply tl_catch; [apply tl_bind; [done|intros; apply tl_ret]|intros; apply tl_ret].
    - intros r. apply tl_bind; [done|]. intros _. destruct r; [apply tl_panic|apply tl_ret].
  Qed.
  Lemma tl_iterM {A} (f : A -> M unit) l : (forall x, tl (f x)) -> tl (iterM f l).
  Proof. intros Hf. induction l; simpl; [apply tl_ret|]. apply tl_bind; auto. Qed.
  Lemma alike_same s s' : s_insts s' = s_insts s -> s_sfctr s' = s_sfctr s -> alike s s'.
  Proof. intros H1 H2. split; [done|]. intros i. rewrite H1. by destruct (s_insts s !! i). Qed.
  Lemma alike_inst i f s : (forall y, i_attrs (f y) = i_attrs y /\ i_def (f y) = i_def y) -> alike s (p_inst i f s).
  Proof.
    intros Hf. split; [done|]. intros j. unfold p_inst. cbn. destruct (decide (i = j)) as [->|].
    - rewrite lookup_alter. destruct (s_insts s !! j); [|done]. apply Hf.
    - rewrite lookup_alter_ne by done. by destruct (s_insts s !! j).
  Qed.
  Lemma told_same s s' : s_insts s' = s_insts s -> s_sfctr s' = s_sfctr s -> s_log s' = s_log s -> told s -> told s'.
  Proof.
    intros H1 H2 H3 Hs. apply (told_alike [] s s'); [by apply alike_same|done|done|done|]. unfold trace. rewrite H1, H3. apply Hs.
  Qed.
  Lemma tl_modify f : (forall s, s_insts (f s) = s_insts s) -> (forall s, s_sfctr (f s) = s_sfctr s) -> (forall s, s_log (f s) = s_log s) -> tl (modify f).
  Proof. intros H1 H2 H3 s Hs. by eapply told_same; [..|exact Hs]; cbn. Qed.
  Lemma told_log e s : idle_ev e = true -> told s -> told (p_log e s).
  Proof.
    intros He Hs. apply (told_alike [e] s); [by apply alike_same|done|cbn; by rewrite He|done|].
    intros i y r k v Hy Hr Hk. rewrite (trace_logs [e] s) by done. eapply offered_mono. by eapply (proj1 (proj2 (proj2 Hs))).
  Qed.
  Lemma tl_log e : idle_ev e = true -> tl (log_ev e).
  Proof. intros He s Hs. by apply told_log. Qed.
  Lemma tl_upd_inst i f : (forall y, i_attrs (f y) = i_attrs y) -> (forall y, i_def (f y) = i_def y) -> (forall y, i_rdata (f y) = i_rdata y) -> tl (upd_inst i f).
  Proof.
    intros H1 H2 H3 s Hs. change (upd_inst i f s).2 with (p_inst i f s). apply (told_alike [] s); [by apply alike_inst|done|done|done|].
    change (trace (p_inst i f s)) with (trace s). intros j y r k v Hy Hr Hk. unfold p_inst in Hy. cbn in Hy.
    destruct (decide (i = j)) as [->|].
    - rewrite lookup_alter in Hy. destruct (s_insts s !! j) as [y0|] eqn:Hy0; [|done]. injection Hy as <-. rewrite H2. rewrite H3 in Hr.
      by eapply (proj1 (proj2 (proj2 Hs))).
    - rewrite lookup_alter_ne in Hy by done. by eapply (proj1 (proj2 (proj2 Hs))).
  Qed.

  (** *** What sets, returns and reports *)
  Lemma told_set tr i m s y : s_insts s !! i = Some y -> told s -> told (p_set tr i m s).
  Proof.
    intros Hy (H1 & H2 & H3 & H4 & H5). assert (trace (p_set tr i m s) = trace s ++ [EvSet i m tr]) as Ht by by apply (trace_logs [EvSet i m tr]).
    assert (forall j y', s_insts (p_set tr i m s) !! j = Some y' -> exists y0, s_insts s !! j = Some y0 /\ i_def y' = i_def y0 /\ i_rdata y' = i_rdata y0) as Hi.
    { intros j y' Hj. unfold p_set, p_inst in Hj. cbn in Hj. destruct (decide (i = j)) as [->|].
      - rewrite lookup_alter, Hy in Hj. injection Hj as <-. eauto.
      - rewrite lookup_alter_ne in Hj by done. eauto. }
    split_and!.
    - intros j Hj. unfold p_set, p_inst. cbn in *. destruct (decide (i = j)) as [->|]; [by rewrite lookup_alter, H1|by rewrite lookup_alter_ne, H1].
    - intros j k. rewrite Ht, assigned_app, last_app_list, <- H2. unfold attr_of, p_set, p_inst, p_log. cbn [s_insts set_s_insts set_s_log].
      destruct (decide (i = j)) as [->|Hne].
      + rewrite assigned_one, lookup_alter, Hy. cbn. rewrite lookup_union. destruct (m !! k) as [v|]; cbn; by destruct (i_attrs y !! k).
      + rewrite assigned_other by done. by rewrite lookup_alter_ne.
    - intros j y' r k v Hj Hr Hk. destruct (Hi _ _ Hj) as (y0 & Hy0 & Hd & Hr'). rewrite Ht, Hd. apply offered_mono. rewrite Hr' in Hr. by eapply H3.
    - rewrite Ht, notices_app, changes_app. cbn. by rewrite !app_nil_r.
    - rewrite Ht. intros l1 j z ins outs e l2 Hl. apply split_snoc in Hl as [(_ & _ & ?)|(l2' & -> & Hl)]; [done|].
      destruct (H5 _ _ _ _ _ _ _ Hl) as (y0 & Hy0 & Hf).
      assert (exists y', s_insts (p_set tr i m s) !! j = Some y') as [y' Hy'].
      { unfold p_set, p_inst. cbn. destruct (decide (i = j)) as [->|]; [rewrite lookup_alter, Hy0; eauto|rewrite lookup_alter_ne by done; eauto]. }
      exists y'. split; [done|]. destruct (Hi _ _ Hy') as (y1 & Hy1 & Hd & _). rewrite Hd. rewrite Hy0 in Hy1. by injection Hy1 as <-.
  Qed.
  Lemma tl_set_attrs tr i m : tl (set_attrs tr i m).
  Proof.
    intros s Hs. unfold set_attrs, bind, get_inst, bind, get. destruct (s_insts s !! i) as [y|] eqn:Hy; [|done].
    change (told (p_set tr i m s)). by eapply told_set.
  Qed.
  Lemma cached_rdata i y s k v r : told s -> s_insts s !! i = Some y -> i_rdata (cached y) = Some r -> r !! k = Some v -> offered i (i_def y) k (trace s).
  Proof.
    intros Hs Hy Hr Hk. unfold cached in Hr. cbn in Hr. destruct (i_rdata y) as [r0|] eqn:H0.
    - injection Hr as ->. by eapply (proj1 (proj2 (proj2 Hs))).
    - destruct (d_md (i_def y)) as [[mi [mo|]]|] eqn:Hd; try done. injection Hr as <-. left. unfold make_rdata in Hk.
      rewrite map_lookup_imap in Hk. destruct (mo !! k) as [w|] eqn:Hw; [|done]. by exists (mk_md mi (Some mo)), mo, w.
  Qed.
  Lemma told_cached i y s : s_insts s !! i = Some y -> told s -> told (p_inst i cached s).
  Proof.
    intros Hy Hs. apply (told_alike [] s); [by apply alike_inst|done|done|done|].
    change (trace (p_inst i cached s)) with (trace s). intros j y' r k v Hy' Hr Hk. unfold p_inst in Hy'. cbn in Hy'.
    destruct (decide (i = j)) as [->|].
    - rewrite lookup_alter, Hy in Hy'. injection Hy' as <-. change (i_def (cached y)) with (i_def y). by eapply cached_rdata.
    - rewrite lookup_alter_ne in Hy' by done. by eapply (proj1 (proj2 (proj2 Hs))).
  Qed.
  Lemma tl_get_return_data i : tl (get_return_data i).
  Proof.
    intros s Hs. destruct (s_insts s !! i) as [y|] eqn:Hy.
    - rewrite (get_return_data_eq _ _ _ Hy). cbn [snd]. by eapply told_cached.
    - unfold get_return_data, bind, get_inst, bind, get. by rewrite Hy.
  Qed.
  (** What was returned or replied is kept as the data of the flow. *)
  Lemma told_result i f d ev s : idle_ev ev = true -> (forall y, i_attrs (f y) = i_attrs y) -> (forall y, i_def (f y) = i_def y) -> (forall y, i_rdata (f y) = d) ->
    (exists e, ev = EvReturn i d e \/ ev = EvResult d e) -> told s -> told (p_log ev (p_inst i f s)).
  Proof.
    intros Hev H1 H2 H3 [e He] Hs. apply (told_alike [ev] s); [|done|cbn; by rewrite Hev|done|].
    { destruct (alike_inst i f s) as [A B]; [done|]. by split. }
    assert (trace (p_log ev (p_inst i f s)) = trace s ++ [ev]) as Ht by by apply (trace_logs [ev] s).
    intros j y r k v Hy Hr Hk. rewrite Ht. unfold p_inst in Hy. cbn in Hy. destruct (decide (i = j)) as [->|].
    - rewrite lookup_alter in Hy. destruct (s_insts s !! j) as [y0|] eqn:Hy0; [|done]. injection Hy as <-. rewrite H3 in Hr. subst d.
      right. exists r, e, v. split; [|done]. destruct He as [->| ->]; [left|right]; apply elem_of_app; right; left.
    - rewrite lookup_alter_ne in Hy by done. apply offered_mono. by eapply (proj1 (proj2 (proj2 Hs))).
  Qed.
  Lemma tl_return i d e : tl (return_ i d e).
  Proof. intros s Hs. apply (told_result i (fun x => set_i_force true (set_i_rdata d (set_i_rerr e x))) d (EvReturn i d e) s); try done. by exists e; left. Qed.
  Lemma tl_reply i d e : tl (reply i d e).
  Proof.
    unfold reply. intros s Hs. unfold bind at 1, get_inst, bind at 1, get. destruct (s_insts s !! i) as [y|]; [|done]. unfold ret at 1.
    destruct (i_handler y); [|done]. apply (told_result i (set_i_rdata d) d (EvResult d e) s); try done. by exists e; right.
  Qed.
  (** The change of a status and the event about it. *)
  Lemma event_faithful i y od d z ins outs e l : (forall k, last (assigned i k l) = i_attrs y !! k) -> last l = Some (EvFlowStatus i z) ->
    flow_event i y od = EvFlowEvent i z ins outs e -> (forall r k w, od = Some r -> r !! k = Some w -> offered i d k l) -> faithful i d z ins outs e l.
  Proof.
    intros Hla Hl Hev Hod.
    set (rt := fun n : string => match od with Some r => match r !! n with Some VNil | None => false | Some _ => true end | None => false end).
    change (EvFlowEvent i (i_status y)
      (if bool_decide (i_status y = FNotStarted) then ∅ else map_imap (fun n v => if rt n then None else Some v) (i_attrs y))
      (if bool_decide (i_status y = FCompleted) then map_imap (fun n v => if rt n then Some v else None) (i_attrs y) else ∅)
      (if bool_decide (i_status y = FFailed) then i_rerr y else None) = EvFlowEvent i z ins outs e) in Hev.
    assert (forall k, rt k = true -> offered i d k l) as Hrt.
    { intros k Hk. unfold rt in Hk. destruct od as [r|]; [|done]. destruct (r !! k) as [w|] eqn:Hw; [|done]. by eapply Hod. }
    clearbody rt. injection Hev as <- <- <- <-. unfold faithful. split; [done|]. split_and!.
    - intros k v. rewrite Hla. repeat case_bool_decide; rewrite ?map_lookup_imap, ?lookup_empty; destruct (i_attrs y !! k) as [w|]; cbn;
        try destruct (rt k); naive_solver.
    - intros k v Hz. rewrite Hla, bool_decide_eq_false_2 by done. case_bool_decide as Hz2; rewrite ?map_lookup_imap, ?lookup_empty; intros ->; cbn;
        destruct (rt k) eqn:Hk; auto 6.
    - intros k. case_bool_decide; rewrite ?map_lookup_imap, ?lookup_empty; [by intros [? ?]|]. case_bool_decide; rewrite ?map_lookup_imap, ?lookup_empty; [|done].
      destruct (i_attrs y !! k); cbn; [|done]. destruct (rt k); [by intros [? ?]|done].
    - intros k. case_bool_decide; rewrite ?map_lookup_imap, ?lookup_empty; [|by intros [? ?]]. destruct (i_attrs y !! k); cbn; [|by intros [? ?]].
      destruct (rt k) eqn:Hk; [auto|by intros [? ?]].
    - intros Hz. by rewrite bool_decide_eq_false_2.
  Qed.
  Lemma tl_set_flow_status i z : tl (set_flow_status E i z).
  Proof.
    intros s Hs. destruct (s_insts s !! i) as [y|] eqn:Hy; [|unfold set_flow_status, bind, get_inst, bind, get; by rewrite Hy].
    rewrite (set_flow_status_eq E i z s y Hy). cbn [snd]. set (s1 := p_inst i (posted E z) (p_fstat i z s)).
    set (y1 := posted E z (set_i_status z y)).
    assert (s_insts s1 !! i = Some y1) as Hy1. { unfold s1, p_fstat, p_inst. cbn. by rewrite !lookup_alter, Hy. }
    assert (i_attrs y1 = i_attrs y /\ i_def y1 = i_def y) as [Ha1 Hd1]. { unfold y1, posted. by destruct (_ && _). }
    assert (forall j, j <> i -> s_insts s1 !! j = s_insts s !! j) as Hne. { intros j Hj. unfold s1, p_fstat, p_inst. cbn. by rewrite !lookup_alter_ne. }
    pose proof Hs as Hs0. destruct Hs as (H1 & H2 & H3 & H4 & H5).
    set (s2 := p_tell _ s1). set (tail := EvFlowStatus i z :: notice E i (set_i_status z y)).
    assert (trace s2 = trace s ++ tail) as Ht.
    { unfold trace, s2, s1, p_tell, p_fstat, p_inst, tail. cbn. rewrite rev_app_distr. cbn. rewrite <- app_assoc. f_equal. cbn. f_equal.
      unfold notice. by destruct (e_listener E). }
    assert (forall k, attr_of s i k = i_attrs y !! k) as Hat by (intros k; unfold attr_of; by rewrite Hy).
    assert (forall i' k, assigned i' k tail = []) as Ga.
    { intros. apply assigned_none. unfold tail, notice. destruct (e_listener E); by repeat constructor. }
    assert (forall r k v, i_rdata y1 = Some r -> r !! k = Some v -> offered i (i_def y) k (trace s)) as Hr1.
    { intros r k v Hr Hk. unfold y1, posted in Hr. destruct (_ && _); [|by eapply H3].
      unfold cached in Hr. cbn in Hr. destruct (i_rdata y) as [r0|] eqn:Hr0; [injection Hr as <-; by eapply H3|].
      destruct (d_md (i_def y)) as [[mi [mo|]]|] eqn:Hd; try done. injection Hr as <-. left. unfold make_rdata in Hk.
      rewrite map_lookup_imap in Hk. destruct (mo !! k) as [w|] eqn:Hw; [|done]. by exists (mk_md mi (Some mo)), mo, w. }
    split_and!.
    - intros j Hj. change (s_insts s1 !! j = None). change (s_sfctr s < j)%nat in Hj. specialize (H1 j Hj).
      destruct (decide (j = i)) as [->|]; [congruence|by rewrite Hne].
    - intros j k. rewrite Ht, assigned_app, Ga, app_nil_r, <- H2. unfold attr_of. change (s_insts s2) with (s_insts s1).
      destruct (decide (j = i)) as [->|]; [|by rewrite Hne]. rewrite Hy1, Hy. cbn. by rewrite Ha1.
    - intros j y' r k v Hj Hr Hk. rewrite Ht. apply offered_mono. change (s_insts s1 !! j = Some y') in Hj. destruct (decide (j = i)) as [->|].
      + rewrite Hy1 in Hj. injection Hj as <-. rewrite Hd1. by eapply Hr1.
      + rewrite Hne in Hj by done. by eapply H3.
    - rewrite Ht, notices_app, changes_app, H4. unfold tail, notice. destruct (e_listener E); [done|by rewrite app_nil_r].
    - rewrite Ht. intros l1 j z' ins outs e l2 Hl.
      assert (forall l2', trace s = l1 ++ EvFlowEvent j z' ins outs e :: l2' -> exists y', s_insts s2 !! j = Some y' /\ faithful j (i_def y') z' ins outs e l1) as Hold.
      { intros l2' Hl'. destruct (H5 _ _ _ _ _ _ _ Hl') as (y0 & Hy0 & Hf). change (s_insts s2) with (s_insts s1).
        destruct (decide (j = i)) as [->|]; [|rewrite Hne by done; eauto]. rewrite Hy1. exists y1. split; [done|]. rewrite Hd1. congruence. }
      unfold tail, notice in Hl. destruct (e_listener E).
      + change (trace s ++ EvFlowStatus i z :: ?x) with (trace s ++ [EvFlowStatus i z] ++ x) in Hl.
        rewrite app_assoc in Hl. apply split_snoc in Hl as [(-> & -> & Heq)|(l2' & -> & Hl)].
        * assert (j = i) as -> by (by injection Heq). exists y1. split; [done|]. rewrite Hd1. eapply event_faithful; [| |by rewrite Heq|].
          -- intros k. rewrite assigned_app. cbn. rewrite app_nil_r, <- H2. apply Hat.
          -- injection Heq as -> _ _ _. apply last_snoc.
          -- cbn [i_status set_i_status]. intros r k w Hr Hk. destruct (bool_decide (z = FNotStarted)); [discriminate Hr|]. apply offered_mono.
             eapply (cached_rdata i y s k w r); [exact Hs0|done|exact Hr|done].
        * apply split_snoc in Hl as [(_ & _ & ?)|(l2'' & -> & Hl)]; [done|]. by eapply Hold.
      + apply split_snoc in Hl as [(_ & _ & ?)|(l2'' & -> & Hl)]; [done|]. by eapply Hold.
  Qed.
  Lemma tl_new_embedded t uri d : tl (new_embedded t uri d).
  Proof.
    intros s Hs. unfold new_embedded, bind, get, get_ti, bind, get. destruct (s_tis s !! t) as [x|]; [|done].
    unfold ret, modify, log_ev, modify. cbn [snd]. set (i := S (s_sfctr s)). set (y := mk_inst _ _ _ _ _ _ _ _ _ _ _ _).
    set (ev := EvSubCreated _ _ _ _). set (s' := set_s_log _ _). destruct Hs as (H1 & H2 & H3 & H4 & H5).
    assert (trace s' = trace s ++ [ev]) as Ht by by apply (trace_logs [ev] s s').
    assert (s_insts s !! i = None) as Hn by (apply H1; unfold i; lia).
    assert (s_insts s' = <[i := y]> (s_insts s)) as Hi by done.
    split_and!.
    - intros j Hj. change (S (s_sfctr s) < j)%nat in Hj. rewrite Hi, lookup_insert_ne by (unfold i; lia). apply H1. lia.
    - intros j k. rewrite Ht, assigned_app. cbn. rewrite app_nil_r, <- H2. unfold attr_of. rewrite Hi. destruct (decide (j = i)) as [->|].
      + by rewrite lookup_insert, Hn.
      + by rewrite lookup_insert_ne.
    - intros j y' r k v Hj Hr Hk. rewrite Ht. apply offered_mono. rewrite Hi in Hj. destruct (decide (j = i)) as [->|].
      + rewrite lookup_insert in Hj. by injection Hj as <-.
      + rewrite lookup_insert_ne in Hj by done. by eapply H3.
    - rewrite Ht, notices_app, changes_app. cbn. by rewrite !app_nil_r.
    - rewrite Ht. intros l1 j z ins outs e l2 Hl. apply split_snoc in Hl as [(_ & _ & ?)|(l2' & -> & Hl)]; [done|].
      destruct (H5 _ _ _ _ _ _ _ Hl) as (y0 & Hy0 & Hf). exists y0. split; [|done]. rewrite Hi, lookup_insert_ne; [done|]. intros <-. congruence.
  Qed.

  Ltac go := repeat first
    [ assumption
    | lazymatch goal with
      | |- tl (ret _) => apply tl_ret
      | |- tl (panic _) => apply tl_panic
      | |- tl out_of_fuel => apply tl_fuel
      | |- tl get => apply tl_get
      | |- tl (log_ev _) => apply tl_log; reflexivity
      | |- tl (set_attrs _ _ _) => apply tl_set_attrs
      | |- tl (set_flow_status _ _ _) => apply tl_set_flow_status
      | |- tl (new_embedded _ _ _) => apply tl_new_embedded
      | |- tl (reply _ _ _) => apply tl_reply
      | |- tl (return_ _ _ _) => apply tl_return
      | |- tl (get_return_data _) => apply tl_get_return_data
      | |- tl (upd_inst _ _) => apply tl_upd_inst; intros ?; reflexivity
      | |- tl (modify _) => apply tl_modify; intros ?; reflexivity
      | |- tl (iterM _ _) => apply tl_iterM; intros ?
      | |- tl (bind _ _) => apply tl_bind; [|intros ?]
      | |- tl (catch _ _) => apply tl_catch; [|intros ?]
      | |- tl (finally _ _) => apply tl_finally
      | |- tl (let _ := _ in _) => cbv zeta
      | |- tl (match ?x with _ => _ end) => destruct x
      | |- tl (get_ti _) => unfold get_ti
      | |- tl (get_inst _) => unfold get_inst
      | |- tl (upd_ti _ _) => unfold upd_ti
      | |- tl (ext _ _) => unfold ext
      | |- tl tick => unfold tick
      | |- tl (set_wd _ _ _) => unfold set_wd
      | |- tl (set_value _ _ _ _) => unfold set_value
      | |- tl (set_values _ _ _) => unfold set_values
      | |- tl (set_task_status _ _) => unfold set_task_status
      | |- tl (track_task _) => unfold track_task
      | |- tl (new_tinst _ _) => unfold new_tinst
      | |- tl (find_or_create_task _ _) => unfold find_or_create_task
      | |- tl (find_or_create_link _ _) => unfold find_or_create_link
      | |- tl (from_links _) => unfold from_links
      | |- tl (to_links _) => unfold to_links
      | |- tl (need_cov _ _ _) => unfold need_cov
      | |- tl (set_link_status _ _ _ _) => unfold set_link_status
      | |- tl (release_task _ _) => unfold release_task
      | |- tl (schedule_eval _) => unfold schedule_eval
      | |- tl (record_state _) => unfold record_state
      | |- tl (append_error_data _ _ _) => unfold append_error_data
      | |- tl (set_task_error _ _ _) => unfold set_task_error
      | |- tl (add_activity_coverage _ _) => unfold add_activity_coverage
      | |- tl (apply_settings _ _) => unfold apply_settings
      | |- tl (enter _) => unfold enter
      | |- tl (host_of _) => unfold host_of
      | |- tl clear_tasks => unfold clear_tasks
      | |- tl (complete_flow _ _) => unfold complete_flow
      | |- tl (entries_of _ _) => unfold entries_of
      | |- tl (eval_link _ _ _) => unfold eval_link
      | |- tl (done_link _ _ _ _ _) => unfold done_link
      | |- tl (beh_skip _ _) => unfold beh_skip
      | |- tl (beh_error _ _) => unfold beh_error
      | |- tl (flow_task_done _) => unfold flow_task_done
      | |- tl (parent_info _ _) => unfold parent_info
      | |- tl (icpt_id _) => unfold icpt_id
      | |- tl (apply_input_mapper _ _) => unfold apply_input_mapper
      | |- tl (apply_input_icpt _ _) => unfold apply_input_icpt
      | |- tl (set_exec_status _ _ _) => unfold set_exec_status
      | |- tl (apply_output_icpt _ _) => unfold apply_output_icpt
      | |- tl (apply_output_mapper _ _) => unfold apply_output_mapper
      | |- tl (handle_accumulation _ _) => unfold handle_accumulation
      | |- tl (guard_err _ _) => unfold guard_err
      | |- tl (recover_eval _ _) => unfold recover_eval
      | |- tl (has_output_icpt _ _) => unfold has_output_icpt
      | |- tl (retry_value _ _ _) => unfold retry_value
      | |- tl (retry_data _ _ _) => unfold retry_data
      | |- tl (retry_bound _) => unfold retry_bound
      | |- tl (iterate_on _ _ _) => unfold iterate_on
      | |- tl (init_index _) => unfold init_index
      | |- tl (update_index _) => unfold update_index
      | |- tl (check_cond _ _) => unfold check_cond
      end ].

  Lemma tl_done_links t i ls a : tl (done_links E t i ls a).
  Proof. revert a. induction ls as [|l ls IH]; intros a; simpl; [go|]. apply tl_bind; [go|]. intros []; [go|apply IH]. Qed.
  Lemma tl_beh_done t : tl (beh_done E t).
  Proof.
    unfold beh_done. apply tl_bind; [go|]. intros ls. apply tl_bind; [go|]. intros _. apply tl_bind; [go|]. intros x. cbv zeta.
    destruct ls; [go|]. apply tl_bind; [apply tl_done_links|]. intros [e|a]; [go|]. apply tl_bind; [go|]. intros es. go.
  Qed.
  Lemma tl_asserts t id b k l : tl (run_asserts E t id b k l).
  Proof. revert k. induction l as [|a l IH]; intros k; cbn [run_asserts]; [go|]. destruct (negb b), (as_empty a), (as_type a =? 1)%Z; go; apply IH. Qed.
  Lemma tl_apply_asserts t ty : tl (apply_asserts E t ty).
  Proof. unfold apply_asserts. go. apply tl_asserts. Qed.

  (** *** Entering tasks *)
  Lemma tl_enter_list skip i es : (forall t, tl (skip t)) -> tl (enter_list E skip i es).
  Proof.
    intros Hs. induction es as [|[tk z] es IH]; cbn [enter_list]; [go|]. apply tl_bind; [go|]. intros t. apply tl_bind; [go|]. intros x.
    destruct (e_conc E && ti_sched x); [done|]. apply tl_bind; [go|]. intros []; [done|go|]. apply tl_bind; [done|intros; done].
  Qed.
  Lemma tl_with_lock {A} (m : M A) : tl m -> tl (with_lock E m).
  Proof. intros Hm. unfold with_lock. destruct (e_conc E); [|done]. go. intros s Hs. exact Hs. Qed.
  Lemma tl_global ent i e : (forall j es, tl (ent j es)) -> tl (handle_global_error E ent i e).
  Proof. intros He. unfold handle_global_error. go. apply He. Qed.
  Lemma tl_done ent t : (forall j es, tl (ent j es)) -> tl (handle_task_done E ent t).
  Proof.
    intros He. unfold handle_task_done. apply tl_bind; [go|]. intros x. cbv zeta. apply tl_bind.
    { destruct (bool_decide _); go; apply tl_beh_done. }
    intros [e|[nt es]].
    - apply tl_bind; [go|]. intros y. apply tl_bind; [go|]. intros _. by apply tl_global.
    - apply tl_bind; [go|]. intros fd. apply tl_bind; [go|]. intros y. apply tl_bind; [|intros; go].
      destruct (_ || _); [go|]. apply tl_bind; [apply He|intros; go].
  Qed.
  Lemma tl_enter_tasks n i es : tl (enter_tasks E n i es).
  Proof.
    revert i es. induction n as [|n IH]; intros i es; cbn [enter_tasks]; apply tl_with_lock, tl_enter_list; intros t; [apply tl_fuel|].
    by apply tl_done.
  Qed.
  Lemma tl_enter_top i es : tl (enter_top E i es).
  Proof. unfold enter_top. apply tl_bind; [go|]. intros. apply tl_enter_tasks. Qed.
  Lemma tl_handle_error t e : tl (handle_task_error E t e).
  Proof.
    unfold handle_task_error. apply tl_bind; [go|]. intros _. apply tl_bind; [go|]. intros _. apply tl_bind; [go|]. intros r.
    apply tl_bind; [go|]. intros x. cbv zeta. destruct (r.1).
    - apply tl_bind; [go|]. intros _. apply tl_bind; [|intros; go]. destruct (r.2); [go|]. apply tl_bind; [apply tl_enter_top|intros; go].
    - apply tl_bind; [go|]. intros y. destruct (i_handling y); [go|]. apply tl_bind; [go|]. intros _. apply tl_global, tl_enter_top.
  Qed.
  Lemma tl_start_instance i m : tl (start_instance E i m).
  Proof.
    unfold start_instance. apply tl_bind; [go|]. intros x. apply tl_bind; [go|]. intros h. apply tl_bind; [go|]. intros _.
    apply tl_bind; [go|]. intros _. apply tl_bind; [go|]. intros _. apply tl_bind; [go|]. intros _. apply tl_bind; [apply tl_enter_top|intros; go].
  Qed.
  Lemma tl_start_subflow t uri ins : tl (start_subflow E t uri ins).
  Proof.
    unfold start_subflow. apply tl_bind; [go|]. intros n. destruct (e_def E n uri); [|go..]. apply tl_bind; [go|]. intros i.
    apply tl_bind; [apply tl_start_instance|]. intros _. go.
  Qed.
  Lemma tl_run_act t a : tl (run_act E t a).
  Proof.
    induction a as [r|n v k IH|m k IH|n v k IH|d e k IH|d e k IH|uri ins k1 IH1 k2 IH2]; cbn [run_act]; (apply tl_bind; [go|]; intros x); [go..|].
    apply tl_bind; [apply tl_start_subflow|]. intros []; done.
  Qed.

  (** *** Evaluating *)
  Lemma tl_call t : tl (call_activity E t).
  Proof.
    unfold call_activity. apply tl_bind; [go|]. intros x. cbv zeta. apply tl_bind; [go|]. intros _. apply tl_bind; [go|]. intros a.
    apply tl_bind; [apply tl_catch; [apply tl_run_act|intros; go]|]. intros [| |e0|msg]; [go|go| |go]. cbv zeta.
    apply tl_bind; [go|]. intros _. apply tl_bind; [go|]. intros _. apply tl_bind; [go|]. intros y. apply tl_bind; [go|]. intros _.
    apply tl_bind; [go|]. intros _. apply tl_bind; [|intros; go]. apply tl_catch; [|intros; go]. apply tl_bind; [apply tl_apply_asserts|intros; go].
  Qed.
  Lemma tl_finish t : tl (finish_activity E t).
  Proof.
    unfold finish_activity. apply tl_bind; [go|]. intros x. unfold guard_err. apply tl_bind; [go|]. intros []; [go|].
    apply tl_bind; [go|]. intros []; [go|]. apply tl_bind; [go|]. intros []; [go|]. apply tl_bind; [apply tl_apply_asserts|]. intros []; go.
  Qed.
  Lemma tl_eval_activity t : tl (eval_activity E t).
  Proof.
    unfold eval_activity, recover_eval. apply tl_catch; [|intros; go]. apply tl_bind; [go|]. intros x. destruct (t_act (ti_task x)) as [ac|]; [|go].
    unfold guard_err. apply tl_bind; [go|]. intros []; [go|]. apply tl_bind; [go|]. intros []; [|apply tl_finish].
    apply tl_bind; [go|]. intros []; [go|]. apply tl_bind; [go|]. intros [].
    - apply tl_bind; [go|]. intros _. apply tl_finish.
    - apply tl_bind; [apply tl_call|]. intros [|[]]; [go|apply tl_finish|go].
  Qed.
  Lemma tl_post t : tl (post_eval_activity E t).
  Proof.
    unfold post_eval_activity, recover_eval. apply tl_catch; [|intros; go]. apply tl_bind; [go|]. intros x. cbv zeta. apply tl_bind; [go|]. intros p.
    apply tl_bind.
    - destruct p; [|go]. apply tl_bind; [go|]. intros _. apply tl_bind; [apply tl_run_act|]. intros []; go.
    - intros [e|b]; [go|]. apply tl_bind; [go|]. intros y. destruct (ti_rerr y); [go|]. destruct b; [|go]. unfold guard_err.
      apply tl_bind; [go|]. intros []; [go|]. apply tl_bind; [go|]. intros []; [go|]. apply tl_bind; [apply tl_apply_asserts|]. intros []; go.
  Qed.
  Lemma tl_retry_loop n t r : tl (retry_loop E n t r).
  Proof.
    revert r. induction n as [|n IH]; intros r; cbn [retry_loop]; (apply tl_bind; [go|]); intros x; destruct r as [e|]; [|go| |go];
      destruct (t_retry (ti_task x)) as [rc|]; [|go| |go]; (destruct (retriable e); [|go]); (apply tl_bind; [go|]); intros [e'|[z iv]]; [go| |go|];
      (destruct (0 <? z)%Z; [|go]); [go|]. apply tl_bind; [go|]. intros _. apply tl_bind; [apply tl_eval_activity|]. apply IH.
  Qed.
  Lemma tl_eval_retry t : tl (eval_retry E t).
  Proof.
    unfold eval_retry. apply tl_bind; [apply tl_eval_activity|]. intros r. apply tl_bind; [go|]. intros x. destruct r as [e|]; [|go].
    destruct (t_retry (ti_task x)) as [rc|]; [|go]. destruct (retriable e); [|go]. apply tl_bind; [go|]. intros []; [go|].
    apply tl_bind; [go|]. intros n. apply tl_retry_loop.
  Qed.
  Lemma tl_iter_step t it : tl (iter_step E t it).
  Proof.
    unfold iter_step. destruct (iter_next it) as [it' o]. apply tl_bind; [go|]. intros _. destruct o as [[[k v] ix]|]; [|go].
    apply tl_bind; [go|]. intros _. apply tl_bind; [apply tl_eval_retry|]. intros [|[]]; go.
  Qed.
  Lemma tl_beh_eval ty t : tl (beh_eval E ty t).
  Proof.
    destruct ty; cbn [beh_eval].
    - unfold basic_eval. apply tl_bind; [go|]. intros x. destruct (bool_decide _); [go|]. apply tl_bind; [apply tl_eval_retry|intros; go].
    - unfold iter_eval. apply tl_bind; [go|]. intros x. destruct (bool_decide _); [go|]. destruct (ti_wd x !! "_iterator") as [[]|]; try (by go).
      + apply tl_iter_step.
      + destruct (t_loop (ti_task x)); [|go]. apply tl_bind; [go|]. intros [|v]; [go|]. destruct v; try (by go); (destruct (make_iter E _); [|go]);
        (apply tl_bind; [go|]; intros _; apply tl_bind; [go|]; intros _; apply tl_iter_step).
    - unfold dw_eval. apply tl_bind; [go|]. intros x. destruct (bool_decide _); [go|]. apply tl_bind; [go|]. intros _.
      apply tl_bind; [apply tl_eval_retry|]. intros [|[]]; go.
  Qed.
  Lemma tl_beh_post ty t : tl (beh_post E ty t).
  Proof.
    destruct ty; cbn [beh_post].
    - unfold basic_post. apply tl_bind; [apply tl_post|]. intros r. apply tl_bind; [go|]. intros x. destruct r as [e|]; [|go].
      destruct e; try (by go). destruct (t_retry (ti_task x)); [|go]. apply tl_bind; [go|]. intros [|[z iv]]; [go|].
      destruct (0 <? z)%Z; [|go]. apply tl_bind; [go|]. intros _. apply tl_bind; [apply tl_eval_retry|intros; go].
    - unfold iter_post. apply tl_bind; [apply tl_post|]. intros []; go.
    - unfold dw_post. apply tl_bind; [go|]. intros _. apply tl_bind; [apply tl_post|]. intros []; go.
  Qed.
  Lemma tl_recover t m : tl (exec_recover E t m).
  Proof.
    unfold exec_recover. apply tl_bind; [go|]. intros x. apply tl_bind; [go|]. intros y. cbv zeta. destruct (i_handling y); [go|].
    apply tl_bind; [go|]. intros _. apply tl_global, tl_enter_top.
  Qed.
  Lemma tl_exec_first t : tl (exec_first E t).
  Proof.
    unfold exec_first. apply tl_bind; [go|]. intros x. cbv zeta. destruct (bool_decide _); [go|].
    apply tl_bind; [destruct (bool_decide _); [apply tl_beh_post|apply tl_beh_eval]|].
    intros [e|[]]; try (by go). apply tl_bind; [apply tl_handle_error|intros; go].
  Qed.
  Lemma tl_done_first t : tl (done_first E t).
  Proof.
    unfold done_first. apply tl_bind; [go|]. intros x. cbv zeta. apply tl_bind.
    { destruct (bool_decide _); go; apply tl_beh_done. }
    intros [e|[nt es]].
    - apply tl_bind; [go|]. intros y. apply tl_bind; [go|]. intros _. apply tl_bind; [apply tl_global, tl_enter_top|intros; go].
    - apply tl_bind; [go|]. intros fd. apply tl_bind; [go|]. intros y. destruct (_ || _); go.
  Qed.
  Lemma tl_piece th : tl (piece E th).
  Proof.
    assert (Hr : forall t msg, tl (bind (exec_recover E t msg) (fun _ => ret ThEnd))).
    { intros. apply tl_bind; [apply tl_recover|intros; go]. }
    destruct th as [w t|t|t es|t| | |]; cbn [piece]; [| | | |go..].
    - apply tl_bind; [go|]. intros y. apply tl_bind; [go|]. intros _. apply tl_catch; [apply tl_exec_first|by apply Hr].
    - apply tl_catch; [|by apply Hr]. apply tl_bind; [apply tl_done_first|intros; go].
    - apply tl_catch; [|by apply Hr]. apply tl_bind; [go|]. intros x. apply tl_bind; [apply tl_enter_top|intros; go].
    - apply tl_catch; [|by apply Hr]. apply tl_bind; [go|]. intros x. go.
  Qed.


  (** *** Runs *)
  Lemma tl_exec t : tl (exec_task E t).
  Proof.
    unfold exec_task. apply tl_catch; [|apply tl_recover]. unfold exec_body. apply tl_bind; [go|]. intros x. cbv zeta.
    destruct (bool_decide _); [go|]. apply tl_bind; [destruct (bool_decide _); [apply tl_beh_post|apply tl_beh_eval]|].
    intros [e|[]]; try (by go); [apply tl_handle_error|apply tl_done, tl_enter_top..].
  Qed.
  Lemma tl_do_step : tl (do_step E).
  Proof.
    unfold do_step. apply tl_bind; [go|]. intros _. apply tl_bind; [go|]. intros x. destruct (bool_decide _); [|go].
    apply tl_bind; [go|]. intros s. destruct (s_queue s) as [|[w t] q]; [go|]. apply tl_bind; [go|]. intros y.
    apply tl_bind; [go|]. intros _. apply tl_bind; [go|]. intros _. apply tl_bind; [apply tl_exec|intros; go].
  Qed.
  Lemma tl_record : tl (record_state E).
  Proof. go. Qed.
  Lemma tl_run_loop n k : tl (run_loop E n k).
  Proof.
    revert k. induction n as [|n IH]; intros k; cbn [run_loop]; [go|]. apply tl_bind; [go|]. intros x. destruct (_ <? _)%Z; [|go].
    apply tl_bind; [apply tl_do_step|]. intros more. apply tl_bind; [destruct (e_ext E); go|]. intros _. destruct more; [apply IH|go].
  Qed.
  Lemma tl_flow_asserts id ty b k l f : tl (flow_asserts E id ty b k l f).
  Proof. revert k f. induction l as [|a l IH]; intros k f; cbn [flow_asserts]; unfold ext_flow; go; apply IH. Qed.
  Lemma tl_finish_run ro k : tl (run_finish E ro k).
  Proof.
    assert (forall ty, tl (apply_flow_asserts E ty)) as Ha.
    { intros ty. unfold apply_flow_asserts. go. apply tl_flow_asserts. }
    unfold run_finish, flow_state. go; apply Ha.
  Qed.
  Lemma tl_prepare ro ins : tl (run_prepare E ro ins).
  Proof. unfold run_prepare, flow_state, start. go; apply tl_start_instance. Qed.
  Lemma tl_head ro : tl (run_head E ro).
  Proof. unfold run_head. go. Qed.
  Lemma tl_action ro ins : tl (run_action E ro ins).
  Proof.
    unfold run_action, run_body. apply tl_bind; [apply tl_prepare|]. intros _. apply tl_bind; [apply tl_head|]. intros _.
    apply tl_finally; [|go]. cbv zeta. apply tl_bind; [apply tl_run_loop|]. intros. apply tl_finish_run.
  Qed.
  Lemma told_init d uri : told (init_st d uri).
  Proof.
    split_and!.
    - intros j Hj. apply lookup_singleton_ne. cbn in Hj. lia.
    - intros i k. unfold attr_of, init_st, trace. cbn. destruct (decide (i = 0%nat)) as [->|]; [by rewrite lookup_singleton|by rewrite lookup_singleton_ne].
    - intros i y r k v Hy Hr _. cbn in Hy. apply lookup_singleton_Some in Hy as [_ <-]. done.
    - cbn. by destruct (e_listener E).
    - intros l1 i z ins outs e l2 Hl. unfold trace in Hl. cbn in Hl. by destruct l1 as [|? []].
  Qed.
  Lemma told_running d uri s : running E d uri s -> told s.
  Proof.
    induction 1 as [ins|ro ins H|s H IH|s H IH].
    - apply tl_start_instance, told_init.
    - assert (tl (run_begin E ro ins)) as Hb by (unfold run_begin; apply tl_bind; [apply tl_prepare|intros; apply tl_head]). apply Hb, told_init.
    - by apply tl_do_step.
    - by apply tl_record.
  Qed.
  Lemma told_visited d uri s : visited E d uri s -> told s.
  Proof. intros [H|(ro & ins & ->)]; [by eapply told_running|]. apply tl_action, told_init. Qed.
  Lemma told_conc d uri ins chs : told (c_st (conc_run E chs (conc_start E d uri ins))).
  Proof.
    cut (forall c, told (c_st c) -> told (c_st (conc_run E chs c))).
    { intros H. apply H. apply tl_start_instance, told_init. }
    induction chs as [|ch chs IH]; intros c Hc; [done|]. apply IH. destruct ch as [|k]; cbn [conc_step].
    - unfold take_item. destruct (s_insts (c_st c) !! 0%nat); [|done]. destruct (bool_decide _); [|done]. destruct (s_queue (c_st c)) as [|[w t] q]; [done|].
      by eapply told_same; [..|exact Hc].
    - unfold advance. destruct (c_threads c !! k) as [th|]; [|done]. pose proof (tl_piece th _ Hc) as Hp. by destruct (piece E th (c_st c)) as [o s'].
  Qed.
End Told.
