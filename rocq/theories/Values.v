(** What a successful evaluation leaves in the scope of its flow. No Go counterpart (proofs). *)
From Verif Require Export SpecVal Rounds.
Local Open Scope Z_scope.
Local Open Scope eng_scope.

Lemma wp_post {A} E c (m : M A) s (Q : A -> st -> Prop) :
  wp E c m s (fun _ _ => True) -> (forall a s', m s = (Ok a, s') -> Q a s') -> wp E c m s Q.
Proof.
  intros H HQ F. destruct (H F) as [St _]. split; [done|]. intros a Ha. apply HQ. destruct (m s) as [o s']. cbn in *. by subst o.
Qed.

Section Values.
  Local Set Default Proof Using "Type*".
  Context (E : env) (t : nat) (NI : e_icpt E = None).
  Notation c := (Some t).

  (** What is written when the activity of [x] is done, in a flow with attributes [a]. *)
  Definition writes (x : tinst) (a : vmap) (l : list vmap) : Prop :=
    exists ac, t_act (ti_task x) = Some ac /\
    let m := mapped_outputs (t_id (ti_task x)) (ac_outs ac) (ti_out x) in
    if accumulates (ti_task x) then
      exists b, held E (a !! all_key (t_id (ti_task x))) b /\
        l = (if acc_apply (ti_task x) then [m] else []) ++ [{[ all_key (t_id (ti_task x)) := VArr (b ++ [out_obj x]) ]}]
    else l = [m].
  Definition put_all (l : list vmap) (a : vmap) : vmap := foldr (fun m a => m ∪ a) a l.
  (** From [s] to [s'] the outputs are written. *)
  Definition fin (s s' : st) : Prop := exists x y y' l,
    s_tis s !! t = Some x /\ s_insts s !! ti_inst x = Some y /\ s_insts s' !! ti_inst x = Some y' /\ s_tis s' = s_tis s /\
    s_log s' = ((fun m => EvSet (ti_inst x) m (e_track E)) <$> l) ++ s_log s /\ writes x (i_attrs y) l /\ i_attrs y' = put_all l (i_attrs y).

  Lemma eval_get_ti {B} (k : tinst -> M B) x s : s_tis s !! t = Some x -> bind (get_ti t) k s = k x s.
  Proof. intros H. unfold bind, get_ti, bind, get. by rewrite H. Qed.
  Lemma eval_get_inst {B} (k : inst -> M B) i y s : s_insts s !! i = Some y -> bind (get_inst i) k s = k y s.
  Proof. intros H. unfold bind, get_inst, bind, get. by rewrite H. Qed.
  Lemma eval_icpt {B} (k : option err -> M B) x y s : s_tis s !! t = Some x -> s_insts s !! ti_inst x = Some y ->
    bind (apply_output_icpt E t) k s = k None s.
  Proof.
    intros Hx Hy. unfold apply_output_icpt, icpt_id, bind, get_ti, get_inst, bind, get. rewrite Hx. unfold ret at 1. rewrite Hy.
    unfold ret at 1, task_icpt. by rewrite NI.
  Qed.
  Lemma eval_asserts {B} ty (k : option err -> M B) x y s : s_tis s !! t = Some x -> s_insts s !! ti_inst x = Some y ->
    bind (apply_asserts E t ty) k s = k None s.
  Proof.
    intros Hx Hy. unfold apply_asserts, icpt_id, bind, get_ti, get_inst, bind, get. rewrite Hx. unfold ret at 1. rewrite Hy.
    unfold ret at 1, task_icpt. by rewrite NI.
  Qed.
  Lemma eval_set {B} i m (k : unit -> M B) y s : s_insts s !! i = Some y ->
    bind (set_values E i m) k s = k tt (p_set (e_track E) i m s).
  Proof. intros Hy. unfold set_values, set_attrs, bind at 1. by rewrite (eval_get_inst _ _ _ _ Hy). Qed.
  Lemma put_set i m y s : s_insts s !! i = Some y -> s_insts (p_set (e_track E) i m s) !! i = Some (set_i_attrs (m ∪ i_attrs y) y).
  Proof. intros Hy. unfold p_set, p_log, p_inst. cbn [s_insts set_s_log set_s_insts]. by rewrite lookup_alter, Hy. Qed.

  Lemma eval_acc s x y : s_tis s !! t = Some x -> s_insts s !! ti_inst x = Some y ->
    handle_accumulation E t s =
      let put b := (Ok None, p_set (e_track E) (ti_inst x) {[ all_key (t_id (ti_task x)) := VArr (b ++ [out_obj x]) ]} s) in
      match i_attrs y !! all_key (t_id (ti_task x)) with
      | None => put []
      | Some a => match e_toarr E a with Some b => put b | None => (Ok (Some (EOther "accumulate outputs must be array")), s) end
      end.
  Proof.
    intros Hx Hy. unfold handle_accumulation. rewrite (eval_get_ti _ _ _ Hx), (eval_get_inst _ _ _ _ Hy). cbv zeta.
    fold (all_key (t_id (ti_task x))). fold (out_obj x).
    destruct (i_attrs y !! all_key (t_id (ti_task x))) as [a|]; [destruct (e_toarr E a); [|done]|];
      unfold set_value; by rewrite (eval_set _ _ _ _ _ Hy).
  Qed.

  Lemma finish_fin s s' x y b1 : s_tis s !! t = Some x -> s_insts s !! ti_inst x = Some y -> t_act (ti_task x) <> None ->
    finish_activity E t s = (Ok (inr b1), s') -> exists s2, (s2 = s \/ s2 = set_s_tick (S (s_tick s)) s) /\ fin s2 s'.
  Proof.
    intros Hx Hy Hac. unfold finish_activity. rewrite (eval_get_ti _ _ _ Hx). unfold guard_err at 1, bind at 1, ext, bind at 1, tick, bind at 1, get, bind at 1, modify, ret at 1, bind at 1.
    unfold ret at 1. destruct (e_outschema E _ _); [unfold ret; by intros [=]|].
    set (s2 := set_s_tick _ s). intros H. exists s2. split; [by right|].
    assert (s_tis s2 !! t = Some x) as Hx2 by done. assert (s_insts s2 !! ti_inst x = Some y) as Hy2 by done. clearbody s2. clear s Hx Hy.
    revert H. unfold guard_err at 1. rewrite (eval_icpt _ _ _ _ Hx2 Hy2). unfold guard_err at 1.
    destruct (t_act (ti_task x)) as [ac|] eqn:Hc; [|done]. set (m := mapped_outputs (t_id (ti_task x)) (ac_outs ac) (ti_out x)).
    assert (forall s0 y0, s_tis s0 !! t = Some x -> s_insts s0 !! ti_inst x = Some y0 ->
      forall B (k : unit -> M B), bind (apply_output_mapper E t) k s0 = k tt (p_set (e_track E) (ti_inst x) m s0)) as Hmap.
    { intros s0 y0 Hx0 Hy0 B k. assert (apply_output_mapper E t s0 = (Ok tt, p_set (e_track E) (ti_inst x) m s0)) as Hm.
      { unfold apply_output_mapper. rewrite (eval_get_ti _ _ _ Hx0), Hc. unfold set_values, set_attrs. by rewrite (eval_get_inst _ _ _ _ Hy0). }
      unfold bind. by rewrite Hm. }
    assert (forall s0 y0, s_tis s0 !! t = Some x -> s_insts s0 !! ti_inst x = Some y0 ->
      guard_err (apply_asserts E t 1) (ret (inr true)) s0 = (Ok (inr (A:=err) true), s0)) as Has.
    { intros s0 y0 Hx0 Hy0. unfold guard_err. by rewrite (eval_asserts _ _ _ _ _ Hx0 Hy0). }
    destruct (accumulates (ti_task x)) eqn:Hacc.
    - assert (forall b, held E (i_attrs y !! all_key (t_id (ti_task x))) b ->
        (let s3 := p_set (e_track E) (ti_inst x) {[ all_key (t_id (ti_task x)) := VArr (b ++ [out_obj x]) ]} s2 in
         bind ((if acc_apply (ti_task x) then apply_output_mapper E t else ret tt) ;; ret None)
           (fun r : option err => match r with Some e => ret (inl e) | None => guard_err (apply_asserts E t 1) (ret (inr true)) end) s3 = (Ok (inr b1), s') -> fin s2 s')) as Hgo.
      { intros b0 Hb. cbv zeta. set (s3 := p_set _ _ _ s2). set (v := VArr _) in *.
        assert (s_insts s3 !! ti_inst x = Some (set_i_attrs ({[ all_key (t_id (ti_task x)) := v ]} ∪ i_attrs y) y)) as Hy3 by by apply put_set.
        assert (s_tis s3 !! t = Some x) as Hx3 by done. destruct (acc_apply (ti_task x)) eqn:Haa.
        - unfold bind at 1. rewrite (Hmap s3 _ Hx3 Hy3). unfold ret at 1. erewrite (Has (p_set (e_track E) (ti_inst x) m s3)); [|done|by apply put_set].
          intros [= _ <-]. eexists x, y, _, [m; {[ all_key (t_id (ti_task x)) := v ]}].
          split_and!; [done|done|by apply put_set|done|done| |done]. exists ac. split; [done|]. fold m. cbv zeta. rewrite Hacc. exists b0. split; [done|]. by rewrite Haa.
        - unfold bind at 1, bind at 1, ret at 1, ret at 1. erewrite (Has s3); [|done|done]. intros [= _ <-]. eexists x, y, _, [{[ all_key (t_id (ti_task x)) := v ]}].
          split_and!; [done|done|done|done|done| |done]. exists ac. split; [done|]. cbv zeta. rewrite Hacc. exists b0. split; [done|]. by rewrite Haa. }
      intros H. unfold bind at 1, bind at 1 in H. rewrite (eval_acc _ _ _ Hx2 Hy2) in H.
      destruct (i_attrs y !! all_key (t_id (ti_task x))) as [v|] eqn:Hv.
      + destruct (e_toarr E v) as [b0|] eqn:Hb0; [|by revert H; unfold ret; intros [=]].
        eapply (Hgo b0); [done|]. exact H.
      + eapply (Hgo []); [done|]. exact H.
    - unfold bind at 1. rewrite (Hmap s2 y Hx2 Hy2). unfold ret at 1. erewrite (Has (p_set (e_track E) (ti_inst x) m s2)); [|done|by apply put_set].
      intros [= _ <-]. eexists x, y, _, [m]. split_and!; [done|done|by apply put_set|done|done| |done]. exists ac. split; [done|]. fold m. cbv zeta. by rewrite Hacc.
  Qed.

  (** ** The same for the evaluation of each kind of task *)

  (** Nothing but working data changes, and no attribute is set. *)
  Definition settled (s s' : st) : Prop :=
    s_insts s' = s_insts s /\ logs (fun e => match e with EvSet _ _ _ => False | _ => True end) s s' /\
    forall x, s_tis s !! t = Some x -> exists x', s_tis s' !! t = Some x' /\ ti_inst x' = ti_inst x /\ ti_task x' = ti_task x /\ ti_out x' = ti_out x.
  Lemma settled_refl s : settled s s.
  Proof. split_and!; [done|by exists []|eauto]. Qed.
  Lemma settled_trans a b d : settled a b -> settled b d -> settled a d.
  Proof.
    intros (A1 & (l1 & A2 & F1) & A3) (B1 & (l2 & B2 & F2) & B3). split_and!; [congruence| |].
    - exists (l2 ++ l1). rewrite B2, A2, app_assoc. split; [done|]. by apply Forall_app.
    - intros x Hx. destruct (A3 x Hx) as (x1 & Hx1 & ? & ? & ?). destruct (B3 x1 Hx1) as (x2 & Hx2 & ? & ? & ?).
      exists x2. split_and!; congruence.
  Qed.
  Lemma check_settled s : settled s (check_cond E t s).2.
  Proof.
    unfold check_cond, bind at 1, get_ti, bind at 1, get. destruct (s_tis s !! t) as [x|] eqn:Hx; [|apply settled_refl].
    unfold ret at 1. destruct (t_loop (ti_task x)) as [[[src|] ? ? ? ?]|]; try apply settled_refl.
    unfold bind at 1, ext, tick, bind at 1, bind at 1, get, bind at 1, modify, ret at 1, bind at 1, ret at 1.
    assert (settled s (set_s_tick (S (s_tick s)) s)) as S1 by (split_and!; [done|by exists []|eauto]).
    destruct (e_cond E _ _ src) as [v|e|msg]; [|done..].
    assert (settled s (set_s_log (EvCond (ti_inst x) (t_id (ti_task x)) (ti_wd x !! "iteration") v :: s_log s) (set_s_tick (S (s_tick s)) s))) as S2.
    { split_and!; [done| |eauto]. exists [EvCond (ti_inst x) (t_id (ti_task x)) (ti_wd x !! "iteration") v]. split; [done|]. by repeat constructor. }
    unfold bind at 1, log_ev, modify. by destruct v as [|[]| | | | |].
  Qed.
  Lemma index_settled s : settled s (update_index t s).2.
  Proof.
    unfold update_index, bind at 1, get_ti, bind at 1, get. destruct (s_tis s !! t) as [x|] eqn:Hx; [|apply settled_refl].
    assert (forall k w, settled s (set_wd t k w s).2) as Hw.
    { intros k w. split_and!; [done|by exists []|]. intros x' Hx'. exists (set_ti_wd (<[k := w]> (ti_wd x')) x'). split_and!; [|done..].
      unfold set_wd, upd_ti, modify. cbn [snd s_tis set_s_tis]. by rewrite lookup_alter, Hx'. }
    unfold ret at 1. destruct (ti_wd x !! "iteration") as [[]|]; try apply Hw; apply settled_refl.
  Qed.
  Lemma cond_settled s : settled s (finally (check_cond E t) (update_index t) s).2.
  Proof.
    pose proof (check_settled s) as S1. unfold finally, bind at 1, catch, bind at 1.
    destruct (check_cond E t s) as [[a|m| |] s1]; try done; unfold ret at 1; unfold bind at 1;
      pose proof (index_settled s1) as S2; destruct (update_index t s1) as [[[]| | |] s2]; by eapply settled_trans.
  Qed.

  (** The activity is done, and its outputs have been written at the end. *)
  Definition wrote (s : st) (r : err + bool) (s' : st) : Prop :=
    r = inr true -> exists s2, asteps E c s s2 /\ fin s2 s'.
  Definition left (s s' : st) : Prop := exists s2 s3, asteps E c s s2 /\ fin s2 s3 /\ settled s3 s'.

  Lemma wrote_from s1 s2 r s' : asteps E c s1 s2 -> wrote s2 r s' -> wrote s1 r s'.
  Proof. intros St H Hr. destruct (H Hr) as (s3 & St3 & F). exists s3. split; [by etrans|done]. Qed.
  Lemma left_from s1 s2 s' : asteps E c s1 s2 -> left s2 s' -> left s1 s'.
  Proof. intros St (s3 & s4 & St3 & F). exists s3, s4. split; [by etrans|done]. Qed.

  Lemma wp_fin s x y : s_tis s !! t = Some x -> s_insts s !! ti_inst x = Some y -> t_act (ti_task x) <> None ->
    wp E c (finish_activity E t) s (wrote s).
  Proof.
    intros Hx Hy Ha. apply wp_post; [by apply wp_finish_activity|]. intros a s' H ->.
    destruct (finish_fin _ _ _ _ _ Hx Hy Ha H) as (s2 & Hs & F). exists s2. split; [|done].
    destruct Hs as [Hs|Hs]; rewrite Hs; [done|]. apply rtc_once, S_tick.
  Qed.

  Context (i : nat) (tk : task) (HA : t_act tk <> None).
  Definition there (s : st) : Prop := ti_is s t i tk /\ exists d h, inst_is s i d h.
  Lemma there_grows s s' : grows s s' -> there s -> there s'.
  Proof. intros G [A (d & h & B)]. split; [by eapply ti_is_grows|]. exists d, h. by eapply inst_is_grows. Qed.

  Notation wpw m s := (wp E c m s (wrote s)).
  Lemma wpw_seq {A} (m : M A) k s : wp E c m s (fun _ _ => True) -> (forall a s', grows s s' -> wpw (k a) s') -> wpw (bind m k) s.
  Proof.
    intros Hm Hk. eapply wp_bind; [exact Hm|]. intros a s' St G _. eapply wp_weaken; [by apply Hk|].
    intros r s2 _ Hr. by eapply wrote_from.
  Qed.
  Lemma wpw_ret_err e s : wpw (ret (inl e)) s.
  Proof. by apply wp_ret. Qed.
  Lemma wpw_guard m k s : wp E c m s (fun _ _ => True) -> (forall s', grows s s' -> wpw k s') -> wpw (guard_err m k) s.
  Proof. intros Hm Hk. apply wpw_seq; [done|]. intros [e|] s' G; [apply wpw_ret_err|auto]. Qed.
  Lemma wpw_catch m h s : wpw m s -> (forall e s', grows s s' -> wpw (h e) s') -> wpw (catch m h) s.
  Proof.
    intros Hm Hh. apply wp_catch; [done|]. intros e s' St G. eapply wp_weaken; [by apply Hh|]. intros r s2 _ Hr. by eapply wrote_from.
  Qed.
  Lemma wpw_fin s : there s -> wpw (finish_activity E t) s.
  Proof. intros [(x & Hx & Hi & Ht) (d & h & y & Hy & _)]. subst. by eapply wp_fin. Qed.

  Lemma wpw_eval_activity s : there s -> wpw (eval_activity E t) s.
  Proof.
    intros Th. apply wpw_catch.
    2:{ intros e s1 G. apply wp_bti. intros. by apply wp_ret. }
    apply wp_bti. intros x Hx. destruct (t_act (ti_task x)) as [ac|] eqn:Hac; [|apply wp_panic].
    apply wpw_guard.
    { destruct (ac_inmap ac); [|by apply wp_ret]. apply wp_seq; [by apply wp_apply_input_mapper|]. intros. by apply wp_ret. }
    intros s1 G1. apply (there_grows _ _ G1) in Th.
    apply wpw_seq. { eapply wp_weaken; [by apply wp_apply_input_icpt|done]. }
    intros ev s2 G2. apply (there_grows _ _ G2) in Th. destruct ev; [|by apply wpw_fin].
    apply wpw_guard; [apply wp_ext|]. intros s3 G3. apply (there_grows _ _ G3) in Th.
    apply wpw_seq. { unfold has_output_icpt. eapply wp_seq; [eapply wp_weaken; [apply wp_icpt_id|done]|]. intros. by apply wp_ret. }
    intros mk s4 G4. apply (there_grows _ _ G4) in Th. destruct mk.
    - apply wpw_seq; [by apply wp_set_exec_status|]. intros [] s5 G5. apply wpw_fin. by eapply there_grows.
    - assert (Th' := Th). destruct Th' as [Ht (d & h & Hi)].
      apply wpw_seq. { eapply (wp_call_activity E c t i tk d h); [done|done|done|]. unfold not_intercepted, task_icpt. rewrite NI. by split. }
      intros [e|[]] s5 G5; [by apply wp_ret| |by apply wp_ret]. apply wpw_fin. by eapply there_grows.
  Qed.
  Lemma wpw_retry_loop n : forall r s, there s -> r <> inr true -> wpw (retry_loop E n t r) s.
  Proof.
    induction n as [|n IH]; intros r s Th Hr; simpl; apply wp_bti; intros x Hx.
    - destruct r as [e|b]; [|apply wp_ret; intros Hb; by destruct Hr]. destruct (t_retry (ti_task x)) as [rc|]; [|by apply wp_ret].
      destruct (retriable e); [|by apply wp_ret].
      apply wpw_seq; [by apply wp_retry_data|]. intros [e'|[cc iv]] s1 G1; [by apply wp_ret|].
      destruct (0 <? cc); [apply wp_fuel|by apply wp_ret].
    - destruct r as [e|b]; [|apply wp_ret; intros Hb; by destruct Hr]. destruct (t_retry (ti_task x)) as [rc|]; [|by apply wp_ret].
      destruct (retriable e); [|by apply wp_ret].
      apply wpw_seq; [by apply wp_retry_data|]. intros [e'|[cc iv]] s1 G1; [by apply wp_ret|]. apply (there_grows _ _ G1) in Th.
      destruct (0 <? cc); [|by apply wp_ret].
      apply wpw_seq; [by apply wp_set_wd|]. intros [] s2 G2. apply (there_grows _ _ G2) in Th.
      eapply wp_bind; [by apply wpw_eval_activity|]. intros r s3 St G3 Hw. apply (there_grows _ _ G3) in Th.
      assert (r = inr true \/ r <> inr true) as [->|Hn] by (destruct r as [|[]]; [by right|by left|by right]).
      + assert (retry_loop E n t (inr true) = (x <- get_ti t; ret (inr true))) as ->; [by destruct n|].
        apply wp_bti. intros. apply wp_ret. done.
      + eapply wp_weaken; [by apply IH|]. intros r' s4 _ Hr'. by eapply wrote_from.
  Qed.
  Lemma wpw_eval_retry s : there s -> wpw (eval_retry E t) s.
  Proof.
    intros Th. eapply wp_bind; [by apply wpw_eval_activity|]. intros r s1 St G1 Hw. apply (there_grows _ _ G1) in Th.
    apply wp_bti. intros x Hx. destruct r as [e|b]; [|by apply wp_ret].
    eapply (wp_weaken _ _ _ _ (wrote s1)); [|intros r' s4 _ Hr'; by eapply wrote_from].
    destruct (t_retry (ti_task x)) as [rc|]; [|by apply wp_ret].
    destruct (retriable e); [|by apply wp_ret].
    apply wpw_seq; [by apply wp_retry_data|]. intros [e'|p] s2 G2; [by apply wp_ret|]. apply (there_grows _ _ G2) in Th.
    apply wpw_seq; [apply wp_bti; intros; by apply wp_ret|]. intros n s3 G3. apply wpw_retry_loop; [by eapply there_grows|done].
  Qed.

  (** Eval of the behaviours. *)
  Definition done_with (r : err + eval_result) : Prop := r = inr EvalRepeat \/ (r = inr EvalDone /\ t_type tk <> TIterator).
  Definition leaves_it (s : st) (r : err + eval_result) (s' : st) : Prop := done_with r -> left s s'.
  Notation wpl m s := (wp E c m s (leaves_it s)).
  Lemma wpl_seq {A} (m : M A) k s : wp E c m s (fun _ _ => True) -> (forall a s', grows s s' -> wpl (k a) s') -> wpl (bind m k) s.
  Proof.
    intros Hm Hk. eapply wp_bind; [exact Hm|]. intros a s' St G _. eapply wp_weaken; [by apply Hk|].
    intros r s2 _ Hr Hs. eapply left_from; [done|]. by apply Hr.
  Qed.
  Lemma wrote_left s s' : wrote s (inr true) s' -> left s s'.
  Proof. intros H. destruct (H eq_refl) as (s2 & St & F). exists s2, s'. split_and!; [done|done|apply settled_refl]. Qed.
  Ltac unsuc := intros [?|[? ?]]; by discriminate.

  Lemma wpl_basic s : there s -> t_type tk = TBasic -> (forall x, s_tis s !! t = Some x -> ti_status x <> TSkipped) -> wpl (basic_eval E t) s.
  Proof.
    intros Th Ty Hs. apply wp_bti. intros x Hx. case_bool_decide as Hb; [by destruct (Hs x)|].
    eapply wp_bind; [by apply wpw_eval_retry|]. intros [e|[]] s1 St G1 Hw; apply wp_ret.
    - unsuc.
    - intros _. by apply wrote_left.
    - unsuc.
  Qed.
  Lemma wpl_iter_step it s : there s -> t_type tk = TIterator -> wpl (iter_step E t it) s.
  Proof.
    intros Th Ty. unfold iter_step. destruct (iter_next it) as [it' o].
    apply wpl_seq; [by apply wp_set_wd|]. intros [] s1 G1. apply (there_grows _ _ G1) in Th.
    destruct o as [[[k v] ix]|]; [|apply wp_ret; intros [?|[? ?]]; done].
    apply wpl_seq; [by apply wp_set_wd|]. intros [] s2 G2. apply (there_grows _ _ G2) in Th.
    eapply wp_bind; [by apply wpw_eval_retry|]. intros [e|[]] s3 St G3 Hw.
    - eapply wp_seq; [apply wp_end_status; auto|]. intros. apply wp_ret. unsuc.
    - apply wp_ret. intros _. by apply wrote_left.
    - eapply wp_seq; [apply wp_end_status; auto|]. intros. apply wp_ret. unsuc.
  Qed.
  Lemma wpl_iter s : there s -> t_type tk = TIterator -> wpl (iter_eval E t) s.
  Proof.
    intros Th Ty. apply wp_bti. intros x Hx.
    assert (forall s' : st, leaves_it s (inr EvalDone) s') as Hd by (intros s' [?|[? ?]]; done).
    case_bool_decide; [by apply wp_ret|].
    destruct (ti_wd x !! "_iterator") as [[]|]; try apply wp_panic; [by apply wpl_iter_step|].
    destruct (t_loop (ti_task x)) as [lc|]; [|by apply wp_ret].
    apply wpl_seq; [apply wp_iterate_on|]. intros [e|v] s1 G1; [apply wp_ret; unsuc|]. apply (there_grows _ _ G1) in Th.
    assert (forall s' : st, leaves_it s1 (inr EvalDone) s') as Hd1 by (intros s' [?|[? ?]]; done).
    assert (forall v, wpl (match make_iter E v with
        | None => ret (inl (EOther ("iterator '" +:+ t_name (ti_task x) +:+ "' not properly configured")))
        | Some it =>
            set_wd t "_iterator" (WIter it) ;;
            set_wd t "iteration" (WIteration VNil VNil 0) ;;
            iter_step E t it
        end) s1) as HI.
    { intros v'. destruct (make_iter E v'); [|apply wp_ret; unsuc].
      apply wpl_seq; [by apply wp_set_wd|]; intros [] s2 G2. apply (there_grows _ _ G2) in Th.
      apply wpl_seq; [by apply wp_set_wd|]; intros [] s3 G3. apply (there_grows _ _ G3) in Th. by apply wpl_iter_step. }
    destruct v; [by apply wp_ret|..]; apply HI.
  Qed.
  Lemma wpl_dw s : there s -> (forall x, s_tis s !! t = Some x -> ti_status x <> TSkipped) -> wpl (dw_eval E t) s.
  Proof.
    intros Th Hs. apply wp_bti. intros x Hx. case_bool_decide as Hb; [by destruct (Hs x)|].
    apply wpl_seq; [by apply wp_init_index|]. intros [] s1 G1. apply (there_grows _ _ G1) in Th.
    eapply wp_bind; [by apply wpw_eval_retry|]. intros [e|[]] s3 St G3 Hw.
    - eapply wp_seq; [apply wp_end_status; auto|]. intros. apply wp_ret. unsuc.
    - apply wp_post; [by apply wp_cond_index|]. intros r s' Hr _. destruct (Hw eq_refl) as (s2 & St2 & F). exists s2, s3. split_and!; [done|done|].
      pose proof (cond_settled s3) as H. by rewrite Hr in H.
    - eapply wp_seq; [apply wp_end_status; auto|]. intros. apply wp_ret. unsuc.
  Qed.
  Lemma wpl_eval s : there s -> (forall x, s_tis s !! t = Some x -> ti_status x <> TSkipped) -> wpl (beh_eval E (t_type tk) t) s.
  Proof.
    intros Th Hs. destruct (t_type tk) eqn:Ty; cbn [beh_eval]; [by apply wpl_basic|by apply wpl_iter|by apply wpl_dw].
  Qed.
End Values.

(** ** Attributes hold what was assigned last *)

Lemma assigned_app i k l1 l2 : assigned i k (l1 ++ l2) = assigned i k l1 ++ assigned i k l2.
Proof. apply omap_app. Qed.
Definition no_set (e : event) : Prop := match e with EvSet _ _ _ => False | _ => True end.
Lemma assigned_none i k l : Forall no_set l -> assigned i k l = [].
Proof. induction 1 as [|e l He _ IH]; [done|]. by destruct e. Qed.
Lemma assigned_one i k m b : assigned i k [EvSet i m b] = option_list (m !! k).
Proof. unfold assigned. cbn. rewrite bool_decide_eq_true_2 by done. by destruct (m !! k). Qed.
Lemma assigned_other i j k m b : i <> j -> assigned i k [EvSet j m b] = [].
Proof. intros H. unfold assigned. cbn. by rewrite bool_decide_eq_false_2. Qed.

Lemma attr_inst i f s j k : (forall y, i_attrs (f y) = i_attrs y) -> attr_of (p_inst i f s) j k = attr_of s j k.
Proof.
  intros Hf. unfold attr_of, p_inst. cbn [s_insts set_s_insts]. destruct (decide (i = j)) as [->|].
  - rewrite lookup_alter. destruct (s_insts s !! j) as [y|]; [|done]. cbn. by rewrite Hf.
  - by rewrite lookup_alter_ne.
Qed.

Lemma astep_sets E c s s' : astep E c s s' ->
  (exists i m tr y, s_insts s !! i = Some y /\ s' = p_set tr i m s) \/
  ((forall i k, attr_of s' i k = attr_of s i k) /\ logs no_set s s').
Proof.
  intros St.
  assert (forall e s', s_insts s' = s_insts s -> s_log s' = e :: s_log s -> no_set e ->
    (forall i k, attr_of s' i k = attr_of s i k) /\ logs no_set s s') as H1.
  { intros e s2 Hi Hl He. split; [unfold attr_of; by rewrite Hi|]. exists [e]. split; [done|]. by repeat constructor. }
  assert (forall s', s_insts s' = s_insts s -> s_log s' = s_log s ->
    (forall i k, attr_of s' i k = attr_of s i k) /\ logs no_set s s') as H0.
  { intros s2 Hi Hl. split; [unfold attr_of; by rewrite Hi|]. exists []. by split. }
  assert (forall i f, (forall y, i_attrs (f y) = i_attrs y) -> (forall j k, attr_of (p_inst i f s) j k = attr_of s j k) /\ logs no_set s (p_inst i f s)) as H2.
  { intros i f Hf. split; [intros; by apply attr_inst|]. exists []. by split. }
  assert (forall e i f, (forall y, i_attrs (f y) = i_attrs y) -> no_set e ->
    (forall j k, attr_of (p_log e (p_inst i f s)) j k = attr_of s j k) /\ logs no_set s (p_log e (p_inst i f s))) as H3.
  { intros e i f Hf He. split; [intros; by apply attr_inst|]. exists [e]. split; [done|]. by repeat constructor. }
  destruct St; try (right; by apply H0); try (right; by eapply H1); try (right; by eapply H3); try (right; by eapply H2).
  - right. eapply H1; [done|done|]. by destruct e.
  - left. eauto 6.
  - right. apply H2. intros y. by destruct (H y) as (_ & _ & _ & _ & _ & _ & _ & ? & _).
  - right. split.
    + intros i k. unfold attr_of, p_sub. cbn [p_log s_insts set_s_log set_s_insts]. destruct (decide (i = S (s_sfctr s))) as [->|].
      * rewrite lookup_insert. rewrite H6. done.
      * by rewrite lookup_insert_ne.
    + eexists [_]. split; [done|]. by repeat constructor.
Qed.

Lemma last_app_list {A} (l1 l2 : list A) : last (l1 ++ l2) = match last l2 with Some a => Some a | None => last l1 end.
Proof. induction l2 as [|a l2 _] using rev_ind; [by rewrite app_nil_r|]. by rewrite app_assoc, !last_snoc. Qed.

Lemma trace_logs l s s' : s_log s' = l ++ s_log s -> trace s' = trace s ++ rev l.
Proof. intros H. unfold trace. by rewrite H, rev_app_distr. Qed.

Lemma attrs_held E d uri c s : reach E d uri c s -> forall i k, attr_of s i k = last (assigned i k (trace s)).
Proof.
  revert c s. apply (reach_inv E d uri (fun _ s => forall i k, attr_of s i k = last (assigned i k (trace s)))).
  - intros i k. unfold attr_of, init_st, trace. cbn [s_insts s_log]. destruct (decide (i = 0%nat)) as [->|]; [by rewrite lookup_singleton|by rewrite lookup_singleton_ne].
  - intros c s c' s' _ _ IH St.
    assert (forall i m tr y, s_insts s !! i = Some y -> forall j k, attr_of (p_set tr i m s) j k = last (assigned j k (trace (p_set tr i m s)))) as Hset.
    { intros i m tr y Hy j k. rewrite (trace_logs [EvSet i m tr] s (p_set tr i m s)) by done. cbn [rev app].
      rewrite assigned_app, last_app_list, <- IH. unfold attr_of, p_set, p_inst, p_log. cbn [s_insts set_s_insts set_s_log].
      destruct (decide (i = j)) as [->|Hne].
      - rewrite assigned_one, lookup_alter, Hy. cbn. rewrite lookup_union. destruct (m !! k) as [v|]; cbn; [by destruct (i_attrs y !! k)|by destruct (i_attrs y !! k)].
      - rewrite assigned_other by done. by rewrite lookup_alter_ne. }
    assert (forall l, (forall i k, attr_of s' i k = attr_of s i k) -> s_log s' = l ++ s_log s -> Forall no_set l -> forall i k, attr_of s' i k = last (assigned i k (trace s'))) as Hsame.
    { intros l Ha Hl Hn i k. rewrite Ha, IH, (trace_logs _ _ _ Hl), assigned_app, (assigned_none i k (rev l)), app_nil_r; [done|]. by apply Forall_rev. }
    destruct St as [c s s' St|c s|c s w t q x y Hq Hx Hy Ha|c s m y Hy|c s e He].
    + destruct (astep_sets _ _ _ _ St) as [(i & m & tr & y & Hy & ->)|(Ha & l & Hl & Hn)]; [by eapply Hset|by eapply Hsame].
    + by apply (Hsame []).
    + apply (Hsame [EvQDel w (ti_inst x) (t_id (ti_task x))]); [done|done|]. by repeat constructor.
    + by eapply Hset.
    + apply (Hsame [e]); [done|done|]. repeat constructor. by destruct e.
Qed.

(** ** What a round leaves *)

Lemma length_app (a b : string) : String.length (a +:+ b) = (String.length a + String.length b)%nat.
Proof. induction a as [|? a IH]; [done|]. exact (f_equal S IH). Qed.
Lemma all_out_key id n : all_key id <> out_key id n.
Proof.
  unfold all_key, out_key. intros H. apply (f_equal String.length) in H. rewrite !length_app in H. cbn in H. lia.
Qed.
Lemma out_key_inj id n n' : out_key id n = out_key id n' -> n = n'.
Proof. unfold out_key. intros H. by do 3 apply (inj _) in H. Qed.

Lemma mapped_in id ns (o : vmap) n v : n ∈ ns -> o !! n = Some v -> mapped_outputs id (Some ns) o !! out_key id n = Some v.
Proof.
  intros Hn Ho. unfold mapped_outputs. induction ns as [|n' ns IH]; [by apply elem_of_nil in Hn|].
  cbn. destruct (decide (n = n')) as [<-|Hne].
  - rewrite Ho. cbn. apply lookup_insert.
  - apply elem_of_cons in Hn as [?|Hn]; [done|]. destruct (o !! n') as [v'|]; cbn; [|by apply IH].
    rewrite lookup_insert_ne; [by apply IH|]. intros H. by apply out_key_inj in H.
Qed.
Lemma mapped_only id outs (o : vmap) k v : mapped_outputs id outs o !! k = Some v -> exists ns n, outs = Some ns /\ n ∈ ns /\ k = out_key id n /\ o !! n = Some v.
Proof.
  unfold mapped_outputs. destruct outs as [ns|]; [|by rewrite lookup_empty]. intros H. exists ns.
  induction ns as [|n' ns IH]; [change ((∅ : vmap) !! k = Some v) in H; by rewrite lookup_empty in H|]. cbn in H. destruct (o !! n') as [v'|] eqn:Ho; cbn in H.
  - destruct (decide (k = out_key id n')) as [->|Hne].
    + unfold out_key in H at 1. rewrite lookup_insert in H. injection H as <-. exists n'. split_and!; [done|constructor|done|done].
    + rewrite lookup_insert_ne in H by (intros Hk; by destruct Hne). destruct (IH H) as (n & _ & Hn & Hk & Hv). exists n. split_and!; [done|by constructor|done|done].
  - destruct (IH H) as (n & _ & Hn & Hk & Hv). exists n. split_and!; [done|by constructor|done|done].
Qed.

Lemma succeeded_done tk r : succeeded tk r -> done_with tk r.
Proof. unfold succeeded, done_with. destruct r as [e|[]]; try done; [|by left]. destruct (t_type tk); [by right|done|by right]. Qed.

Section Round.
  Local Set Default Proof Using "Type*".
  Context (E : env) (d : defn) (uri : string) (NI : e_icpt E = None).

  (** A successful evaluation ends with writing the outputs: [a] are the attributes before. *)
  Lemma round_left s t x r s1 : running E d uri s -> evaluates E s t x r s1 -> ti_status x <> TWaiting -> succeeded (ti_task x) r ->
    exists x1 y1 l a pre rest b, s_tis s1 !! t = Some x1 /\ ti_inst x1 = ti_inst x /\ ti_task x1 = ti_task x /\
      s_insts s1 !! ti_inst x = Some y1 /\ writes E x1 a l /\ i_attrs y1 = put_all l a /\
      trace s1 = pre ++ ((fun m => EvSet (ti_inst x) m b) <$> rev l) ++ rest /\ Forall no_set rest /\
      (exists since, pre = trace s ++ since) /\ (forall k, a !! k = last (assigned (ti_inst x) k pre)) /\
      (exists c, reach E d uri c s1).
  Proof.
    intros R (Hm & Hx & Hs & Hd & w & q & Hq & Hr) Hw Hsu. apply running_reach in R as [c R].
    unfold main_status in Hm. destruct (s_insts s !! 0%nat) as [y|] eqn:Hy; [|done]. injection Hm as Ha.
    pose proof (popped_reach _ _ _ _ _ _ _ _ _ _ R Hq Hx Hy Ha) as R1.
    rewrite bool_decide_eq_false_2 in Hr by done.
    change (set_s_log (EvQDel w (ti_inst x) (t_id (ti_task x)) :: s_log s) (set_s_queue q (set_s_step (S (s_step s)) s))) with (popped w t x q s) in Hr.
    assert (ti_is (popped w t x q s) t (ti_inst x) (ti_task x)) as Ht by (exists x; done).
    destruct (inv_task _ _ _ _ _ R1 _ _ _ Ht) as (d' & h & Hi & _ & Hact).
    destruct (wpl_eval E t NI (ti_inst x) (ti_task x) Hact (popped w t x q s)) as [St HQ].
    { split; [done|eauto]. }
    { intros x' Hx'. change (s_tis s !! t = Some x') in Hx'. congruence. }
    { by eapply reach_fresh. }
    rewrite Hr in St, HQ. cbn [fst snd] in St, HQ. destruct (HQ r eq_refl (succeeded_done _ _ Hsu)) as (s2 & s3 & St2 & F & (Hin & (rest & Hrest & Hno) & Hti)).
    pose proof (asteps_grows _ _ _ _ St2) as (Gt & _ & (l2 & Hl2)). destruct (Gt _ _ _ Ht) as (x2 & Hx2 & Hi2 & Ht2).
    destruct F as (x' & y2 & y3 & l & Hx2' & Hy2 & Hy3 & Htis & Hlog & Hwr & Hat). rewrite Hx2 in Hx2'. injection Hx2' as <-.
    destruct (Hti x2) as (x1 & Hx1 & Hi1 & Ht1 & Ho1); [by rewrite Htis|].
    assert (forall c s s', reach E d uri c s -> asteps E c s s' -> reach E d uri c s') as Hra.
    { intros c0 u u' Hu Hs'. induction Hs'; [done|]. apply IHHs'. by eapply R_astep. }
    exists x1, y3, l, (i_attrs y2), (trace s2), (rev rest), (e_track E). rewrite <- Hi2, Hin. split_and!; [done|congruence|congruence|done| |done| | | | |].
    - destruct Hwr as (ac & Hac & Hwr). exists ac. unfold out_obj. rewrite Ht1, Ho1. done.
    - unfold trace. rewrite Hrest, Hlog, !rev_app_distr, <- app_assoc. f_equal. f_equal. clear. induction l as [|m l IH]; [done|]. cbn. rewrite IH, fmap_app. done.
    - by apply Forall_rev.
    - exists ([EvQDel w (ti_inst x) (t_id (ti_task x))] ++ rev l2). unfold trace. rewrite Hl2, rev_app_distr. cbn. by rewrite <- app_assoc.
    - intros k. rewrite <- (attrs_held E d uri (Some t) s2); [|by eapply Hra]. unfold attr_of. by rewrite Hy2.
    - exists (Some t). by eapply Hra.
  Qed.

  Lemma accumulates_loop tk lc : t_loop tk = Some lc -> accumulates tk = lc_acc lc.
  Proof. intros H. unfold accumulates. by rewrite H. Qed.

  Lemma mapped_all id outs o : mapped_outputs id outs o !! all_key id = None.
  Proof.
    destruct (mapped_outputs id outs o !! all_key id) eqn:H; [|done]. apply mapped_only in H as (ns & n & _ & _ & H & _). by apply all_out_key in H.
  Qed.
End Round.
