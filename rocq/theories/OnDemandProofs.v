(** On-demand runs compared with other runs. No Go counterpart (proof infrastructure). *)
From Verif Require Export OnDemand Blind Entering.
Local Open Scope Z_scope.

Lemma od_loop_same E n k s : e_ext E = false -> od_loop E n k s = run_loop E n k s.
Proof.
  intros HX. revert k s. induction n as [|n IH]; intros k s; [done|]. cbn [od_loop run_loop]. rewrite HX. unfold bind at 1 3.
  destruct (get_inst 0 s) as [[x| | |] s1]; try done. destruct (_ <? _); [|done]. unfold bind at 1 2. destruct (do_step E s1) as [[more| | |] s2]; try done.
  unfold bind, ret. destruct more; [apply IH|done].
Qed.

(** What the end of a run adds to the log. *)
Definition ending (e : event) : Prop := match e with EvResult _ _ | EvSet _ _ _ => True | _ => False end.
Definition result_of (e : event) : option (option vmap * option err) := match e with EvResult d e => Some (d, e) | _ => None end.
Lemma observed {B} (f : event -> option B) a b : omap f (rev (a ++ b)) = omap f (rev b) ++ omap f (rev a).
Proof. by rewrite rev_app_distr, omap_app. Qed.
Lemma unobserved {B} (f : event -> option B) l : (forall e, e ∈ l -> f e = None) -> omap f (rev l) = [].
Proof. intros H. apply omap_none. intros e He. apply H. by rewrite elem_of_list_In, in_rev, <- elem_of_list_In. Qed.

Section Pair.
  Context (E : env) (HX : e_ext E = false) (HI : e_icpt E = None) (mx : Z) (b : bool).
  Local Set Default Proof Using "Type*".
  Notation ro := (mk_ro 0 b false "" mx).

  Lemma finish_pair k s : is_Some (s_insts s !! 0%nat) -> exists lr lo sr so extra,
    run_finish E ro k s = (Ok tt, set_s_log (lr ++ s_log s) sr) /\ od_finish E mx k s = (Ok tt, set_s_log (lo ++ s_log s) so) /\
    main_status sr = main_status s /\ main_status so = main_status s /\ (forall e, e ∈ lr ++ lo -> ending e) /\
    omap result_of (rev lo) = omap result_of (rev lr) ++ extra /\
    (extra = [] \/ main_status s = Some FFailed /\ last (omap result_of (rev lr)) = Some (None, Some (limit_err E ro)) /\ exists e, extra = [(None, e)]).
  Proof.
    intros [y Hy]. unfold run_finish, od_finish. rewrite !(eval_get_inst _ _ _ _ Hy).
    destruct (Z.eqb_spec (i_status y) FCompleted) as [Hc|Hc]; cbn [negb ro_max]; [rewrite !andb_false_r|rewrite !andb_true_r].
    - assert (T : forall m, apply_flow_asserts E 1 m = match s_insts m !! 0%nat with Some _ => (Ok false, m) | None => (Panic "nil instance", m) end).
      { intros m. unfold apply_flow_asserts, task_icpt, bind, get_inst, bind, get. rewrite HI. by destruct (s_insts m !! 0%nat). }
      set (r := i_rdata (cached y)). set (s1 := p_inst 0 cached s).
      assert (Hy1 : s_insts s1 !! 0%nat = Some (cached y)) by (unfold s1; by rewrite p_inst_at, Hy).
      assert (exists l s2, (match r with Some d => set_values E 0 d | None => ret tt end) s1 = (Ok tt, set_s_log (l ++ s_log s) s2) /\
        (forall e, e ∈ l -> exists i m t, e = EvSet i m t) /\ is_Some (s_insts s2 !! 0%nat) /\ main_status s2 = main_status s) as (l & s2 & H2 & Hl & [y2 Hy2] & Hm2).
      { destruct r as [d|].
        - exists [EvSet 0 d (e_track E)], (p_set (e_track E) 0 d s1). unfold set_values. rewrite (set_attrs_eq _ _ _ _ _ Hy1). split; [done|].
          split; [intros e ->%elem_of_list_singleton; eauto|]. rewrite p_set_at, Hy1. split; [by eexists|]. unfold main_status. rewrite p_set_at, Hy1, Hy. done.
        - exists [], s1. split; [by destruct s|]. split; [by intros e ?%elem_of_nil|]. rewrite Hy1. split; [by eexists|]. unfold main_status. by rewrite Hy1, Hy. }
      exists (EvResult r (i_rerr y) :: l), [EvResult r (i_rerr y)], s2, s1, []. split_and!.
      + unfold bind at 1 2. rewrite (get_return_data_eq _ _ _ Hy). fold r s1. cbn [fst snd]. unfold bind at 1. rewrite H2. unfold bind at 1. rewrite T.
        cbn [s_insts set_s_log]. rewrite Hy2. unfold log_ev, modify. rewrite HX. done.
      + unfold bind at 1, ret at 1. unfold bind at 1. rewrite (get_return_data_eq _ _ _ Hy). done.
      + done.
      + unfold main_status. by rewrite Hy1, Hy.
      + intros e. cbn. rewrite !elem_of_cons, elem_of_app, elem_of_list_singleton. intros [->|[He| ->]]; [done| |done]. by destruct (Hl e He) as (? & ? & ? & ->).
      + rewrite app_nil_r. change (EvResult r (i_rerr y) :: l) with ([EvResult r (i_rerr y)] ++ l). rewrite observed, (unobserved _ l); [done|]. intros e He. by destruct (Hl e He) as (? & ? & ? & ->).
      + by left.
    - assert (T : forall ty m, apply_flow_asserts E ty m = match s_insts m !! 0%nat with Some _ => (Ok false, m) | None => (Panic "nil instance", m) end).
      { intros ty m. unfold apply_flow_asserts, task_icpt, bind, get_inst, bind, get. rewrite HI. by destruct (s_insts m !! 0%nat). }
      cbn [ro_max]. destruct (Z.eqb_spec k mx) as [Hk|Hk]; cbn [negb].
      + destruct (Z.eqb_spec (i_status y) FFailed) as [Hf|Hf].
        * exists [EvResult None (Some (limit_err E ro))], [EvResult None (i_rerr y); EvResult None (Some (limit_err E ro))], s, s, [(None, i_rerr y)].
          split_and!; try done.
          -- unfold bind at 1, log_ev at 1, modify at 1. by rewrite (eval_get_inst _ _ y).
          -- intros e. cbn. rewrite !elem_of_cons. by intros [->|[->|[->|?%elem_of_nil]]].
          -- right. split; [unfold main_status; rewrite Hy; cbn; by rewrite Hf|]. split; [done|]. eauto.
        * exists [EvResult None (Some (limit_err E ro))], [EvResult None (Some (limit_err E ro))], s, s, [].
          split_and!; try done; [|by left]. intros e. cbn. rewrite !elem_of_cons. by intros [->|[->|?%elem_of_nil]].
      + destruct (Z.eqb_spec (i_status y) FFailed) as [Hf|Hf].
        * exists [EvResult None (i_rerr y)], [EvResult None (i_rerr y)], s, s, []. split_and!; try done.
          -- unfold bind at 1 2. rewrite T, Hy. unfold bind at 1, ret at 1. rewrite (eval_get_inst _ _ y) by done. by rewrite HX.
          -- unfold bind at 1, ret at 1. by rewrite (eval_get_inst _ _ y).
          -- intros e. cbn. rewrite !elem_of_cons. by intros [->|[->|?%elem_of_nil]].
          -- by left.
        * exists [], [], s, s, []. split_and!; try done; [by rewrite HX; destruct s|by destruct s| |by left]. by intros e ?%elem_of_nil.
  Qed.
End Pair.

Lemma blind_od_finish E mx k : blind (od_finish E mx k).
Proof.
  unfold od_finish. apply blind_bind; [apply blind_get_inst|]. intros x. apply blind_bind; [destruct (_ && _); apply blind_log || apply blind_ret|]. intros _.
  destruct (_ =? _); [apply blind_bind; [apply blind_return_data|intros; apply blind_log]|]. destruct (_ =? _); [apply blind_bind; [apply blind_get_inst|intros; apply blind_log]|apply blind_ret].
Qed.
Lemma blind_new {A} (m : M A) s a new s1 : blind m -> m s = (a, set_s_log (new ++ s_log s) s1) -> forall l, m (set_s_log l s) = (a, set_s_log (new ++ l) s1).
Proof.
  intros H Hm l. destruct (H s) as [_ [n Hn]]. pose proof (Hn (s_log s)) as H1. rewrite set_log_same, Hm in H1. cbn [fst snd] in H1.
  assert (new = n) as <-.
  { injection H1 as H1. by apply app_inv_tail in H1. }
  rewrite Hn, Hm. done.
Qed.

Lemma finally_done (m : M unit) s : finally m (log_ev EvHandlerDone) s = ((m s).1, set_s_log (signal false (m s).1 ++ s_log (m s).2) (m s).2).
Proof. exact (finally_signal m false s). Qed.

Section Same.
  Context (E : env) (mx : Z) (d : defn) (ins : vmap).
  Notation E' := (od_env E).
  Notation ro := (mk_ro 0 (negb (d_reply d)) false "" mx).

  Lemma start_unseen B (f : event -> option B) : (forall e, start_ev e -> f e = None) -> f EvFlowCreated = None ->
    omap f (trace (start E' ins (init_st d "")).2) = [].
  Proof.
    intros Hf Hc. destruct (lg_start_instance E' start_ev (fun e H => or_introl H) start_set 0 ins (init_st d "")) as (l & Hl & HP).
    unfold trace. change (start E' ins (init_st d "")) with (start_instance E' 0 ins (init_st d "")). rewrite Hl. apply unobserved.
    intros e He. apply elem_of_app in He as [He| ->%elem_of_list_singleton]; [|done]. rewrite Forall_forall in HP. auto.
  Qed.
  Lemma start_silent : delivered (start E' ins (init_st d "")).2 = [].
  Proof.
    apply start_unseen; [|done]. intros e [[Ha|(? & ? & ->)]|(? & ? & ? & ->)]; [|done..]. by destruct e.
  Qed.

  (** A flow whose start fails: the caller of Run gets the panic, nobody gets a result. *)
  Lemma od_start : (start E' ins (init_st d "")).1 <> Ok tt ->
    on_demand E mx d ins = start E' ins (init_st d "") /\ delivered (on_demand E mx d ins).2 = [] /\ done_signals (on_demand E mx d ins).2 = [] /\
    evaluations (on_demand E mx d ins).2 = [].
  Proof.
    intros H. assert (Ho : on_demand E mx d ins = start E' ins (init_st d "")).
    { unfold on_demand, od_run, bind at 1. by destruct (start E' ins (init_st d "")) as [[[]| | |] s]. }
    rewrite Ho. split; [done|]. split; [apply start_silent|]. split; (apply start_unseen; [|done]);
      intros e [[Ha|(? & ? & ->)]|(? & ? & ? & ->)]; try done; by destruct e.
  Qed.

  Definition first_result (v : val) : list event := if d_reply d then [] else [EvResult (Some {[ "id" := v ]}) None].

  Lemma od_same : (start E' ins (init_st d "")).1 = Ok tt ->
    exists A so sr lr lo s0,
      on_demand E mx d ins = (A, set_s_log (lo ++ first_result id_method ++ s0) so) /\
      run_flow E' ro d "" ins = (A, set_s_log (lr ++ first_result (VStr (e_id E)) ++ s0) sr) /\
      main_status so = main_status sr /\ omap result_of (rev s0) = [] /\
      (forall B (f : event -> option B), (forall a b, f (EvResult a b) = None) -> (forall a b c, f (EvSet a b c) = None) -> omap f (rev lo) = omap f (rev lr)) /\
      exists extra, omap result_of (rev lo) = omap result_of (rev lr) ++ extra /\
        (extra = [] \/ main_status so = Some FFailed /\ last (omap result_of (rev lr)) = Some (None, Some (limit_err E ro)) /\ exists e, extra = [(None, e)]).
  Proof.
    intros Hs. pose proof start_silent as Hq. pose proof (inv_main _ _ _ _ _ (started_reach E' d "" ins)) as (y & Hy & Hd & _).
    unfold started in Hy. destruct (start E' ins (init_st d "")) as [o s1] eqn:Hst. cbn [fst snd] in *. subst o.
    set (s2 := p_inst 0 (set_i_handler true) s1).
    assert (Hy2 : s_insts s2 !! 0%nat = Some (set_i_handler true y)) by (unfold s2; by rewrite p_inst_at, Hy).
    destruct (blind_run_loop E' (Z.to_nat mx) 0 s2) as [_ [new Hn]].
    assert (Ho : on_demand E mx d ins = finally (k <- od_loop E' (Z.to_nat mx) 0; od_finish E' mx k) (log_ev EvHandlerDone) (set_s_log (first_result id_method ++ s_log s1) s2)).
    { unfold on_demand, od_run. unfold bind at 1. rewrite Hst. unfold bind at 1. change (upd_inst 0 (set_i_handler true) s1) with (Ok tt, s2). cbv beta iota.
      rewrite (eval_get_inst _ _ _ _ Hy2). change (i_def (set_i_handler true y)) with (i_def y). rewrite Hd. unfold first_result.
      destruct (d_reply d); unfold bind at 1; [change (s_log s1) with (s_log s2); cbn [app ret]; by rewrite set_log_same|done]. }
    assert (Hr : run_flow E' ro d "" ins = finally (k <- run_loop E' (Z.to_nat mx) 0; run_finish E' ro k) (log_ev EvHandlerDone) (set_s_log (first_result (VStr (e_id E)) ++ s_log s1) s2)).
    { unfold run_flow, run_action. unfold bind at 1. unfold run_prepare. change (e_ext E') with false. cbn [ro_event String.eqb]. unfold bind at 1 2 3, ret at 1 2.
      rewrite Hst. unfold bind at 1. change (upd_inst 0 (set_i_handler true) s1) with (Ok tt, s2). unfold ret at 1. unfold run_body, bind at 1, run_head, bind at 1.
      cbn [ro_detach ro_retid ro_init ro_max]. change (0 <? 0) with false. cbv zeta. rewrite Z.sub_0_r. unfold ret at 1, first_result.
      destruct (d_reply d); cbn [negb]; [change (s_log s1) with (s_log s2); unfold ret; cbn [app]; by rewrite set_log_same|done]. }
    rewrite Ho, Hr. clear Ho Hr. rewrite !finally_done.
    assert (Eo : forall k : Z -> M unit, bind (od_loop E' (Z.to_nat mx) 0) k (set_s_log (first_result id_method ++ s_log s1) s2) = bind (run_loop E' (Z.to_nat mx) 0) k (set_s_log (first_result id_method ++ s_log s1) s2)).
    { intros k. unfold bind. by rewrite (od_loop_same _ _ _ _ (eq_refl : e_ext E' = false)). }
    rewrite Eo. clear Eo. unfold bind. rewrite !Hn. destruct (run_loop E' (Z.to_nat mx) 0 s2) as [[k|e| |] s3] eqn:Hl; cbn [fst snd].
    2: { exists (Panic e), s3, s3, (EvHandlerDone :: new), (EvHandlerDone :: new), (s_log s1). split_and!; try done. exists []. split; [by rewrite app_nil_r|by left]. }
    2: { exists Fuel, s3, s3, new, new, (s_log s1). split_and!; try done. exists []. split; [by rewrite app_nil_r|by left]. }
    2: { exists Blocked, s3, s3, new, new, (s_log s1). split_and!; try done. exists []. split; [by rewrite app_nil_r|by left]. }
    destruct (s_insts s3 !! 0%nat) as [y3|] eqn:Hy3.
    2: { assert (Hf : forall l, run_finish E' ro k (set_s_log l s3) = (Panic "nil instance", set_s_log l s3) /\ od_finish E' mx k (set_s_log l s3) = (Panic "nil instance", set_s_log l s3)).
      { intros l. unfold run_finish, od_finish, get_inst, bind, get. cbn [s_insts set_s_log]. by rewrite Hy3. }
      rewrite (proj1 (Hf _)), (proj2 (Hf _)).
      exists (Panic "nil instance"), s3, s3, (EvHandlerDone :: new), (EvHandlerDone :: new), (s_log s1). split_and!; try done. exists []. split; [by rewrite app_nil_r|by left]. }
    destruct (finish_pair E' eq_refl eq_refl mx (negb (d_reply d)) k s3) as (lr & lo & sr & so & extra & Fr & Fo & Mr & Mo & Hend & Hres & Hex); [eauto|].
    rewrite (blind_new _ _ _ _ _ (blind_run_finish E' ro k) Fr), (blind_new _ _ _ _ _ (blind_od_finish E' mx k) Fo). cbn [fst snd signal].
    exists (Ok tt), so, sr, (EvHandlerDone :: lr ++ new), (EvHandlerDone :: lo ++ new), (s_log s1). split_and!.
    - cbn. by rewrite <- app_assoc.
    - cbn. by rewrite <- app_assoc.
    - by rewrite Mo, Mr.
    - exact Hq.
    - intros B f H1 H2. change (EvHandlerDone :: ?l) with ([EvHandlerDone] ++ l). rewrite !observed, !(unobserved _ lr), !(unobserved _ lo); [done|..].
      + intros e He. pose proof (Hend e (proj2 (elem_of_app _ _ _) (or_intror He))). by destruct e.
      + intros e He. pose proof (Hend e (proj2 (elem_of_app _ _ _) (or_introl He))). by destruct e.
    - exists extra. change (EvHandlerDone :: ?l) with ([EvHandlerDone] ++ l). rewrite !observed, !app_nil_r, Hres, app_assoc. split; [done|].
      destruct Hex as [->|(Hf & Hla & He)]; [by left|]. right. split; [by rewrite Mo|]. split; [|done]. by rewrite last_app, Hla.
  Qed.

  Lemma od_view : (start E' ins (init_st d "")).1 = Ok tt -> let o := on_demand E mx d ins in let r := run_flow E' ro d "" ins in
    o.1 = r.1 /\ main_status o.2 = main_status r.2 /\ evaluations o.2 = evaluations r.2 /\ executed o.2 = executed r.2 /\
    done_signals o.2 = done_signals r.2 /\ (forall i, statuses i o.2 = statuses i r.2) /\
    exists ids idr later extra, delivered r.2 = idr ++ later /\ delivered o.2 = ids ++ later ++ extra /\
      (if d_reply d then ids = [] /\ idr = [] else ids = [(Some {[ "id" := id_method ]}, None)] /\ idr = [(Some {[ "id" := VStr (e_id E) ]}, None)]) /\
      (extra = [] \/ main_status o.2 = Some FFailed /\ last later = Some (None, Some (limit_err E ro)) /\ exists e, extra = [(None, e)]).
  Proof.
    intros Hs. destruct (od_same Hs) as (A & so & sr & lr & lo & s0 & -> & -> & Hm & H0 & Hf & extra & Hx & He). cbv zeta. cbn [fst snd].
    assert (G : forall B (f : event -> option B), (forall a b, f (EvResult a b) = None) -> (forall a b c, f (EvSet a b c) = None) ->
      omap f (trace (set_s_log (lo ++ first_result id_method ++ s0) so)) = omap f (trace (set_s_log (lr ++ first_result (VStr (e_id E)) ++ s0) sr))).
    { intros B f H1 H2. unfold trace. cbn [s_log set_s_log]. rewrite !observed, (Hf _ _ H1 H2). f_equal. f_equal. unfold first_result.
      destruct (d_reply d); [done|]. cbn. by rewrite !H1. }
    split; [done|]. split; [exact Hm|]. split; [by apply G|]. split; [by apply G|]. split; [by apply G|]. split; [intros i; by apply G|].
    exists (omap result_of (rev (first_result id_method))), (omap result_of (rev (first_result (VStr (e_id E))))), (omap result_of (rev lr)), extra.
    unfold delivered, trace. cbn [s_log set_s_log]. split_and!.
    - change (omap result_of (rev (lr ++ first_result (VStr (e_id E)) ++ s0)) = omap result_of (rev (first_result (VStr (e_id E)))) ++ omap result_of (rev lr)). by rewrite !observed, H0.
    - change (omap result_of (rev (lo ++ first_result id_method ++ s0)) = omap result_of (rev (first_result id_method)) ++ omap result_of (rev lr) ++ extra).
      by rewrite !observed, H0, Hx.
    - unfold first_result. by destruct (d_reply d).
    - exact He.
  Qed.
End Same.
