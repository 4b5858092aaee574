(** References and subflow inputs (proofs; no Go counterpart). *)
From Verif Require Export Mock Errors SpecRef.
Local Open Scope Z_scope.

(** ** The start of a subflow *)

(** The attributes a flow starts with. *)
Definition md_attrs (d : defn) : vmap := match d_md d with Some md => md_in md | None => ∅ end.
Definition first_attrs (E : env) (d : defn) (i : nat) (h : string * string) (ins : vmap) : vmap :=
  ins ∪ (md_attrs d ∪ ctx_attrs E (d_name d) (inst_id E i) h).

Definition no_act (e : event) : Prop := match e with EvAct _ _ _ _ => False | _ => True end.

Lemma inst_eq E i ins s y h : s_insts s !! i = Some y -> parent_info E i s = (Ok h, s) ->
  exists y1 s1,
    start_instance E i ins s = bind (enter_top E i (start_entries (d_tasks (i_def y)))) (fun _ => ret tt) s1 /\
    s_insts s1 !! i = Some y1 /\ i_def y1 = i_def y /\ i_host y1 = i_host y /\ i_tasks y1 = i_tasks y /\ i_status y1 = FActive /\
    i_attrs y1 = ins ∪ (md_attrs (i_def y) ∪ (ctx_attrs E (d_name (i_def y)) (inst_id E i) h ∪ i_attrs y)) /\
    (forall j, j <> i -> s_insts s1 !! j = s_insts s !! j) /\ s_tis s1 = s_tis s /\ s_nti s1 = s_nti s /\
    s_queue s1 = s_queue s /\
    exists l, s_log s1 = l ++ s_log s /\ forall e, e ∈ l -> no_act e.
Proof.
  intros Hy Hp. set (d := i_def y).
  set (c := ctx_attrs E (d_name d) (inst_id E i) h).
  set (s2 := p_set (e_track E) i c s). set (y2 := set_i_attrs (c ∪ i_attrs y) y).
  assert (Hy2 : s_insts s2 !! i = Some y2) by (unfold s2; by rewrite p_set_at, Hy).
  assert (exists s3 l3, (match d_md d with Some md => set_attrs true i (md_in md) | None => ret tt end) s2 = (Ok tt, s3) /\
    s_insts s3 = <[i := set_i_attrs (md_attrs d ∪ (c ∪ i_attrs y)) y]> (s_insts s2) /\ s_tis s3 = s_tis s2 /\ s_nti s3 = s_nti s2 /\ s_queue s3 = s_queue s2 /\
    s_log s3 = l3 ++ s_log s2 /\ forall e, e ∈ l3 -> no_act e) as (s3 & l3 & Hm & Hi3 & T3 & N3 & Q3 & L3 & P3).
  { unfold md_attrs. destruct (d_md d) as [md|].
    - exists (p_set true i (md_in md) s2), [EvSet i (md_in md) true]. split; [by eapply set_attrs_eq|]. split_and!; try done.
      + unfold p_set, p_inst. cbn [s_insts set_s_insts p_log set_s_log]. apply map_eq. intros j. destruct (decide (j = i)) as [->|Hj].
        * rewrite lookup_alter, lookup_insert, Hy2. done.
        * by rewrite lookup_alter_ne, lookup_insert_ne by done.
      + by intros e ->%elem_of_list_singleton.
    - exists s2, []. split; [done|]. split_and!; try done; [rewrite map_empty_union; symmetry; by apply insert_id|by intros e ?%elem_of_nil]. }
  assert (Hy3 : s_insts s3 !! i = Some (set_i_attrs (md_attrs d ∪ (c ∪ i_attrs y)) y)) by (rewrite Hi3; apply lookup_insert).
  set (s4 := p_set true i ins s3). set (y4 := set_i_attrs (ins ∪ (md_attrs d ∪ (c ∪ i_attrs y))) y).
  assert (Hy4 : s_insts s4 !! i = Some y4) by (unfold s4; by rewrite p_set_at, Hy3).
  exists (posted E FActive (set_i_status FActive y4)), (p_tell (notice E i (set_i_status FActive y4)) (p_inst i (posted E FActive) (p_fstat i FActive s4))).
  split.
  { unfold start_instance. unfold bind at 1, get_inst, bind at 1, get. rewrite Hy. unfold ret at 1. fold d.
    unfold bind at 1. rewrite Hp. unfold bind at 1, set_values. fold c. rewrite (set_attrs_eq _ _ _ _ _ Hy). fold s2.
    unfold bind at 1. rewrite Hm. unfold bind at 1. rewrite (set_attrs_eq _ _ _ _ _ Hy3). fold s4.
    unfold bind at 1. rewrite (set_flow_status_eq _ _ _ _ _ Hy4). done. }
  destruct (posted_fields E FActive (set_i_status FActive y4)) as (F1 & F2 & F3 & F4 & F5 & F6 & F7 & F8 & F9 & F10 & _).
  split_and!.
  - cbn [s_insts p_tell set_s_log]. rewrite p_inst_at. unfold p_fstat. cbn [s_insts set_s_log p_log]. rewrite p_inst_at, Hy4. done.
  - by rewrite F4.
  - by rewrite F1.
  - by rewrite F5.
  - by rewrite F3.
  - by rewrite F9.
  - intros j Hj. cbn. rewrite !lookup_alter_ne by done. rewrite Hi3, lookup_insert_ne by done. unfold s2. cbn. by rewrite lookup_alter_ne by done.
  - cbn. by rewrite T3.
  - cbn. by rewrite N3.
  - cbn. by rewrite Q3.
  - exists (notice E i (set_i_status FActive y4) ++ EvFlowStatus i FActive :: EvSet i ins true :: l3 ++ [EvSet i c (e_track E)]). split.
    + cbn. rewrite L3. cbn. by rewrite <- app_assoc; cbn; rewrite <- app_assoc.
    + intros e. rewrite elem_of_app. intros [(? & ? & ? & ->)%notice_in|He]; [done|]. revert He. rewrite !elem_of_cons, elem_of_app, !elem_of_cons. intros [->|[->|[He|[->|[]%elem_of_nil]]]]; [done|done|by apply P3|done].
Qed.

Lemma sub_eq E t uri ins s d x y :
  e_def E (s_tick s) uri = DOk d -> s_tis s !! t = Some x -> s_insts s !! ti_inst x = Some y -> ti_inst x <> S (s_sfctr s) ->
  let i := S (s_sfctr s) in
  exists y1 s1,
    start_subflow E t uri ins s =
      bind (bind (enter_top E i (start_entries (d_tasks d))) (fun _ => ret tt)) (fun _ =>
        bind (match e_icpt E with
              | Some c => bind (get_ti t) (fun x => need_cov c (ti_inst x) (t_id (ti_task x)))
              | None => ret tt end) (fun _ => ret None)) s1 /\
    s_insts s1 !! i = Some y1 /\ i_def y1 = d /\ i_host y1 = Some t /\ i_tasks y1 = ∅ /\ i_status y1 = FActive /\
    i_attrs y1 = first_attrs E d i (d_name (i_def y), inst_id E (ti_inst x)) ins /\
    (forall j, j <> i -> s_insts s1 !! j = s_insts s !! j) /\ s_tis s1 = s_tis s /\ s_nti s1 = s_nti s /\
    s_queue s1 = s_queue s /\
    exists l, s_log s1 = l ++ s_log s /\ forall e, e ∈ l -> no_act e.
Proof.
  intros Hd Hx Hy Hne i. unfold start_subflow, tick, bind at 1, bind at 1, get, bind at 1, modify, ret at 1. rewrite Hd.
  set (s0 := set_s_tick (S (s_tick s)) s).
  assert (Hn : new_embedded t uri d s0 = (Ok i, p_sub t x uri d s0)).
  { unfold new_embedded, bind, get, get_ti, bind, get. cbn [s_tis set_s_tick s0]. rewrite Hx. done. }
  unfold bind at 1. rewrite Hn. clear Hn. set (s1 := p_sub t x uri d s0).
  set (y0 := mk_inst (Some t) false FNotStarted d uri ∅ ∅ false None None ∅ false).
  assert (Hy0 : s_insts s1 !! i = Some y0) by apply lookup_insert.
  set (h := (d_name (i_def y), inst_id E (ti_inst x))).
  assert (Hp : parent_info E i s1 = (Ok h, s1)).
  { unfold parent_info, host_of, bind, get_inst, bind, get. rewrite Hy0. cbn [ret y0 i_host]. unfold get_ti, bind, get.
    change (s_tis s1) with (s_tis s). rewrite Hx. cbn [ret].
    assert (s_insts s1 !! ti_inst x = Some y) as -> by (unfold s1, p_sub; cbn; by rewrite lookup_insert_ne by (intros ?; by apply Hne)). done. }
  destruct (inst_eq E i ins s1 y0 h Hy0 Hp) as (y1 & s2 & Hs & H1 & H2 & H3 & H4 & H5 & H6 & H7 & H8 & H9 & H10 & l & Hl & HP).
  exists y1, s2. split; [unfold bind at 1; rewrite Hs; done|]. split_and!; try done.
  - rewrite H6. unfold first_attrs, y0. cbn [i_attrs i_def]. by rewrite map_union_empty.
  - intros j Hj. rewrite H7 by done. unfold s1, p_sub. cbn. by rewrite lookup_insert_ne by done.
  - exists (l ++ [EvSubCreated i uri (ti_inst x) (t_id (ti_task x))]). split; [rewrite Hl; cbn; by rewrite <- app_assoc|].
    intros e. rewrite elem_of_app, elem_of_list_singleton. intros [He| ->]; [by apply HP|done].
Qed.

(** ** A step as a whole *)

(** What the changes of an evaluation and of its consequences preserve, a step preserves. *)
Lemma step_rel E s (R : st -> st -> Prop) w t q x :
  s_tis s !! t = Some x ->
  (do_step E s).2 = (exec_task E t (popped w t x q s)).2 -> okq (popped w t x q s) ->
  ops R -> leaves E t (ti_inst x) (ti_task x) R ->
  R (popped w t x q s) (do_step E s).2.
Proof.
  intros Hx -> Ho O L. assert (ti_is (popped w t x q s) t (ti_inst x) (ti_task x)) as Hti by (exists x; done).
  set (s1 := popped w t x q s) in *.
  unfold exec_task. enough (R s1 (exec_body E t s1).2) as Hb.
  { unfold catch. destruct (exec_body E t s1) as [[a|e| |] s2]; cbn [snd] in *; try done. eapply (o_trans _ O); [exact Hb|]. by apply op_recover. }
  unfold exec_body. unfold bind at 1, get_ti at 1, get at 1, bind at 1. change (s_tis s1 !! t) with (s_tis s !! t). rewrite Hx. unfold ret at 1.
  case_bool_decide; [apply (o_refl _ O)|].
  assert (R s1 ((if bool_decide (ti_status x = TWaiting) then beh_post E (t_type (ti_task x)) t else beh_eval E (t_type (ti_task x)) t) s1).2) as He.
  { case_bool_decide; [by apply (rq_beh_post E t _ _ _ L)|by apply (rq_beh_eval E t _ _ _ L)]. }
  unfold bind at 1. destruct ((if bool_decide (ti_status x = TWaiting) then beh_post E (t_type (ti_task x)) t else beh_eval E (t_type (ti_task x)) t) s1) as [[r|m| |] s2]; cbn [snd] in *; try done.
  eapply (o_trans _ O); [exact He|]. destruct r as [e|[]]; [by apply op_handle_error|by apply op_set_task_status|by apply op_task_done| |
    by apply op_set_task_status|by apply op_task_done].
  apply (op_bind _ O); [by apply op_track|]. intros. by apply op_schedule.
Qed.

(** ** The flow context *)

Section Named.
  Local Set Default Proof Using "Type*".
  Context (E : env) (n : string).
  Notation k := ("_fctx." +:+ n).

  Definition own_name (i : nat) (y : inst) : Prop := forall tx, context_text E (i_def y) i n = Some tx -> i_attrs y !! k = Some (VStr tx).
  Definition named (s : st) : Prop := forall i y, s_insts s !! i = Some y -> own_name i y.

  Lemma first_named d i h ins tx : context_text E d i n = Some tx -> ins !! k = None -> md_attrs d !! k = None -> first_attrs E d i h ins !! k = Some (VStr tx).
  Proof.
    intros Ht Hi Hm. unfold first_attrs. rewrite lookup_union_r by done. rewrite lookup_union_r by done. unfold context_text in Ht. unfold ctx_attrs.
    repeat (case_decide; [subst n; by injection Ht as <-|]). done.
  Qed.

  (** A flow whose attributes of this name are those of before. *)
  Lemma named_upd s s' : named s ->
    (forall i y', s_insts s' !! i = Some y' -> exists y, s_insts s !! i = Some y /\ i_def y' = i_def y /\ i_attrs y' !! k = i_attrs y !! k) -> named s'.
  Proof. intros H Hu i y' Hy'. destruct (Hu _ _ Hy') as (y & Hy & Hd & Ha). intros tx. rewrite Hd, Ha. by apply H. Qed.
  Lemma named_same s s' : s_insts s' = s_insts s -> named s -> named s'.
  Proof. intros Hi H i y. rewrite Hi. apply H. Qed.
  Lemma named_inst i f s : (forall y, i_def (f y) = i_def y /\ i_attrs (f y) !! k = i_attrs y !! k) -> named s -> named (p_inst i f s).
  Proof.
    intros Hf H. eapply named_upd; [exact H|]. intros j y' Hy'. unfold p_inst in Hy'. cbn in Hy'. destruct (decide (j = i)) as [->|Hj].
    - rewrite lookup_alter in Hy'. destruct (s_insts s !! i) as [y|] eqn:Hy; [|done]. injection Hy' as <-. exists y. by destruct (Hf y).
    - rewrite lookup_alter_ne in Hy' by done. by exists y'.
  Qed.
  Lemma named_set tr i m s : m !! k = None -> named s -> named (p_set tr i m s).
  Proof.
    intros Hm H. eapply (named_same (p_inst i (fun x => set_i_attrs (m ∪ i_attrs x) x) s)); [done|].
    apply named_inst; [|done]. intros y. split; [done|]. cbn. by rewrite lookup_union_r.
  Qed.

  Definition nrel (j : nat) (s s' : st) : Prop := is_Some (s_insts s !! j) /\ named s -> is_Some (s_insts s' !! j) /\ named s'.
  Lemma nrel_same j s s' : s_insts s' = s_insts s -> nrel j s s'.
  Proof. intros Hi [H N]. split; [by rewrite Hi|by eapply named_same]. Qed.
  Lemma some_alter {A} (f : A -> A) (m : gmap nat A) i j : is_Some (m !! j) -> is_Some (alter f i m !! j).
  Proof. intros [y Hy]. destruct (decide (j = i)) as [->|Hj]; [rewrite lookup_alter, Hy|rewrite lookup_alter_ne by done]; eauto. Qed.
  Lemma nrel_inst j i f s : (forall y, i_def (f y) = i_def y /\ i_attrs (f y) !! k = i_attrs y !! k) -> nrel j s (p_inst i f s).
  Proof. intros Hf [H N]. split; [by apply some_alter|by apply named_inst]. Qed.
  Lemma nrel_set j tr i m s : m !! k = None -> nrel j s (p_set tr i m s).
  Proof. intros Hm [H N]. split; [by apply some_alter|by apply named_set]. Qed.
  Lemma nrel_trans j a b c : nrel j a b -> nrel j b c -> nrel j a c.
  Proof. intros H1 H2 H. auto. Qed.

  Lemma k_apart : ~ error_name k /\ forall id, foreign id k.
  Proof.
    assert (He : ~ error_name k) by (by intros [?|[? ?]]). split; [done|]. intros id. split; [done|]. split; [by unfold all_key|]. intros m. by unfold out_key.
  Qed.

  Lemma ops_nrel j : ops (nrel j).
  Proof.
    split.
    - intros s. by apply nrel_same.
    - apply nrel_trans.
    - intros e s _. by apply nrel_same.
    - intros i f s Hf. apply nrel_inst. intros y. by destruct (Hf y) as (_ & -> & ->).
    - intros tr i m s Hm. apply nrel_set. destruct (m !! k) eqn:H; [|done]. by destruct (Hm k v H) as [?|[? ?]].
    - intros i z s _. eapply nrel_trans; [by apply (nrel_inst j i (set_i_status z))|by apply nrel_same].
    - intros t f s _. by apply nrel_same.
    - intros x s. by apply nrel_same.
    - intros s s' Hi _ _ _ _. by apply nrel_same.
  Qed.

  Context (d0 : defn) (Hr : reserved E d0 k).

  Lemma undeclared d : ~ declares d k -> md_attrs d !! k = None.
  Proof.
    intros H. unfold md_attrs. destruct (d_md d) as [md|] eqn:Hm; [|done]. destruct (md_in md !! k) eqn:Hk; [|done]. destruct H. exists md. by rewrite Hk.
  Qed.

  Lemma nrel_sub t j tk uri ins s : ti_is s t j tk -> okq s -> (forall m, is_Some (ins !! m) -> gives E m) -> nrel j s (start_subflow E t uri ins s).2.
  Proof.
    intros (x & Hx & Hi & Ht) Ho Hg. destruct Hr as (R1 & R2 & R3 & R4).
    destruct (e_def E (s_tick s) uri) as [d| |e] eqn:Hd;
      [|apply nrel_same; unfold start_subflow, tick, bind at 1, bind at 1, get, bind at 1, modify, ret at 1; by rewrite Hd..].
    intros [[y Hy] N].
    assert (Hne : j <> S (s_sfctr s)). { intros ->. destruct Ho as [_ O2]. rewrite O2 in Hy by lia. done. }
    rewrite <- Hi in Hy, Hne. destruct (sub_eq E t uri ins s d x y Hd Hx Hy Hne) as (y1 & s1 & -> & Hy1 & Hd1 & _ & _ & _ & Ha & Hj & _).
    cbv zeta in *. set (i := S (s_sfctr s)) in *. rewrite Hi in *.
    assert (nrel j s1 ((bind (bind (enter_top E i (start_entries (d_tasks d))) (fun _ => ret tt)) (fun _ =>
        bind (match e_icpt E with
              | Some c => bind (get_ti t) (fun x => need_cov c (ti_inst x) (t_id (ti_task x)))
              | None => ret tt end) (fun _ => ret (None : option err)))) s1).2) as Hop.
    { pose proof (ops_nrel j) as O. apply (op_bind _ O); [apply (op_bind _ O); [by apply op_enter_top|intros; by apply op_ret]|].
      intros _. apply (op_bind _ O); [|intros; by apply op_ret]. destruct (e_icpt E) as [c|]; [|by apply op_ret].
      apply (op_bind _ O); [by apply op_get_ti|]. intros x'. by apply op_cov. }
    apply Hop. split; [rewrite Hj by done; by rewrite Hy|].
    intros i' y' Hy' tx Htx. destruct (decide (i' = i)) as [->|Hi'].
    - rewrite Hy1 in Hy'. injection Hy' as <-. rewrite Ha. rewrite Hd1 in Htx. apply first_named; [done| |apply undeclared; by eapply R4].
      destruct (ins !! k) eqn:Hk; [|done]. destruct R2. apply Hg. by rewrite Hk.
    - rewrite Hj in Hy' by done. by eapply N.
  Qed.

  Lemma nrel_leaves t j tk : leaves E t j tk (nrel j).
  Proof.
    destruct k_apart as [Ke Kf]. assert (R1 : ~ scoped E k) by apply Hr. constructor; constructor.
    - intros s. by apply nrel_same.
    - apply nrel_trans.
    - intros s _. by apply nrel_same.
    - intros e s _ _. by apply nrel_same.
    - intros m s _ _ Hm. apply nrel_set. by eapply foreign_names.
    - intros f s _ _ _. by apply nrel_same.
    - intros v s _ _. apply nrel_set. by apply lookup_singleton_None.
    - intros d e s _. unfold reply, bind, get_inst, bind, get. destruct (s_insts s !! j) as [y|]; [|by apply nrel_same].
      unfold ret at 1. destruct (i_handler y); [|by apply nrel_same].
      eapply (nrel_trans _ _ (p_inst j (set_i_rdata d) s)); [by apply nrel_inst|by apply nrel_same].
    - intros d e s _. eapply (nrel_trans _ _ (p_inst j (fun x => set_i_force true (set_i_rdata d (set_i_rerr e x))) s)); [by apply nrel_inst|by apply nrel_same].
    - intros u ins s [H Ho] Hg. split; [by eapply nrel_sub|]. destruct (quiet_sub_own E t j tk u ins s Ho H) as (Q & _ & _).
      split; [by eapply ti_is_quiet|by destruct (Q Ho)].
    - intros m v s _ _ Hm. apply nrel_set. apply lookup_singleton_None. by intros ->.
    - intros ins it s x _ _ _ _. by apply nrel_same.
    - intros e s _. by apply nrel_same.
    - intros e s _ _. by apply nrel_same.
    - intros k' w s _. by apply nrel_same.
    - intros s x z _ _ _ _. by apply nrel_same.
  Qed.

  Lemma step_named uri s : running E d0 uri s -> named s -> named (do_step E s).2.
  Proof.
    intros [c R]%running_reach N. destruct (do_step_cases E s) as [->|(w & t & q & x & y & Hq & Hx & Hy & Ha & Hs)]; [by eapply named_same|].
    pose proof (popped_reach _ _ _ _ _ _ _ _ _ _ R Hq Hx Hy Ha) as R1.
    destruct (step_rel E s (nrel (ti_inst x)) w t q x Hx) as [_ H]; [by rewrite Hs|by eapply fresh_okq, reach_fresh|apply ops_nrel|apply nrel_leaves| |done].
    assert (ti_is s t (ti_inst x) (ti_task x)) as Hti by (exists x; done). destruct (inv_task _ _ _ _ _ R _ _ _ Hti) as (d' & h & (y' & Hy' & _) & _).
    split; [change (s_insts (popped w t x q s)) with (s_insts s); eauto|by eapply named_same].
  Qed.
End Named.

(** ** The beginning *)

Section Begins.
  Local Set Default Proof Using "Type*".
  Context (E : env) (R : st -> st -> Prop) (O : ops R) (RI : forall s s', s_insts s' = s_insts s -> R s s').

  Lemma op_after ro : op R (after_start E ro).
  Proof.
    unfold after_start. apply (op_bind _ O); [by apply op_upd_inst|]. intros _. destruct (e_ext E); [|by apply op_ret].
    destruct (_ <=? _); [by apply op_record|]. intros s. by apply RI.
  Qed.
  Lemma op_head ro : op R (run_head E ro).
  Proof. unfold run_head. apply (op_bind _ O); [|intros _]; [destruct (ro_detach ro)|destruct (ro_retid ro)]; try (intros s; by apply RI). Qed.

  (** The state in which the first tasks are entered, and what follows. *)
  Lemma begins_eq d uri ins s0 : begins E d uri ins s0 -> exists y1 s1 a, R s1 s0 /\ s_insts s1 = {[ 0%nat := y1 ]} /\ i_def y1 = d /\
    (forall k, dotless k \/ context_name k -> a !! k = None) /\
    i_attrs y1 = ins ∪ (md_attrs d ∪ (ctx_attrs E (d_name d) (inst_id E 0) ("", "") ∪ a)).
  Proof.
    assert (HS : forall s y, s_insts s = {[ 0%nat := y ]} -> i_host y = None -> i_def y = d -> (forall k, dotless k \/ context_name k -> i_attrs y !! k = None) ->
      exists y1 s1 a, start E ins s = bind (enter_top E 0 (start_entries (d_tasks d))) (fun _ => ret tt) s1 /\ s_insts s1 = {[ 0%nat := y1 ]} /\ i_def y1 = d /\
      (forall k, dotless k \/ context_name k -> a !! k = None) /\ i_attrs y1 = ins ∪ (md_attrs d ∪ (ctx_attrs E (d_name d) (inst_id E 0) ("", "") ∪ a))).
    { intros s y Hi Hh Hd Ha. assert (Hy : s_insts s !! 0%nat = Some y) by (rewrite Hi; apply lookup_singleton).
      assert (Hp : parent_info E 0 s = (Ok ("", ""), s)).
      { unfold parent_info, host_of, bind, get_inst, bind, get. rewrite Hy. unfold ret. by rewrite Hh. }
      destruct (inst_eq E 0 ins s y _ Hy Hp) as (y1 & s1 & Hs & H1 & H2 & H3 & H4 & H5 & H6 & H7 & _). rewrite Hd in *.
      exists y1, s1, (i_attrs y). split; [exact Hs|]. split; [|by split_and!].
      apply map_eq. intros j. destruct (decide (j = 0%nat)) as [->|Hj]; [by rewrite lookup_singleton|].
      rewrite (H7 j Hj), Hi, !lookup_singleton_ne by done. done. }
    intros [->|[ro Hb]].
    - destruct (HS (init_st d uri) _ eq_refl eq_refl eq_refl) as (y1 & s1 & a & Hs & H); [intros k _; apply lookup_empty|].
      exists y1, s1, a. split; [|exact H]. unfold started. rewrite Hs. apply (op_bind _ O); [by apply op_enter_top|intros; by apply op_ret].
    - assert (HB : exists s' y, before_start E ro (init_st d uri) = (Ok tt, s') /\ s_insts s' = {[ 0%nat := y ]} /\ i_host y = None /\ i_def y = d /\
        forall k, dotless k \/ context_name k -> i_attrs y !! k = None).
      { set (y0 := mk_inst None false FNotStarted d uri ∅ ∅ false None None ∅ false).
        assert (HI0 : s_insts (init_st d uri) = {[ 0%nat := y0 ]}) by done.
        assert (exists s1 y, (if e_ext E then flow_state ;; log_ev EvRecStart else ret tt) (init_st d uri) = (Ok tt, s1) /\
          s_insts s1 = {[ 0%nat := y ]} /\ i_host y = None /\ i_def y = d /\ i_attrs y = ∅) as (s1 & y & H1 & Hi & Hh & Hd & Ha).
        { assert (Hy : s_insts (init_st d uri) !! 0%nat = Some y0) by apply lookup_singleton. destruct (e_ext E); [|by exists (init_st d uri), y0].
          unfold flow_state, bind at 1 2. rewrite (get_return_data_eq _ _ _ Hy). unfold ret, log_ev, modify. exists (p_log EvRecStart (p_inst 0 cached (init_st d uri))), (cached y0).
          split; [done|]. split; [cbn; by rewrite alter_singleton|]. unfold cached. by destruct (i_rdata y0). }
        unfold before_start, bind at 1. rewrite H1. destruct (String.eqb _ _).
        - exists s1, y. rewrite Ha. split_and!; try done.
        - assert (Hy : s_insts s1 !! 0%nat = Some y) by (rewrite Hi; apply lookup_singleton).
          unfold set_value, set_values. rewrite (set_attrs_eq _ _ _ _ _ Hy). eexists _, _. split; [reflexivity|].
          split; [unfold p_set; cbn; by rewrite Hi, alter_singleton|]. split_and!; try done. cbn. rewrite Ha, map_union_empty.
          intros k Hk. apply lookup_singleton_None. intros <-. destruct Hk as [Hk|[m ?]]; [|done]. by apply (Hk "event" "id"). }
      destruct HB as (s' & y & Hb' & Hi & Hh & Hd & Ha). destruct (HS s' y Hi Hh Hd Ha) as (y1 & s1 & a & Hs & H).
      exists y1, s1, a. split; [|exact H].
      assert (Hr : run_begin E ro ins (init_st d uri) = bind (bind (enter_top E 0 (start_entries (d_tasks d))) (fun _ => ret tt)) (fun _ => after_start E ro ;; run_head E ro) s1).
      { unfold run_begin, bind at 1. rewrite run_prepare_parts. change (bind (if e_ext E then flow_state ;; log_ev EvRecStart else ret tt) _) with (before_start E ro).
        unfold bind at 1. rewrite Hb'. unfold bind at 1. rewrite Hs. unfold bind at 3.
        destruct (bind (enter_top E 0 (start_entries (d_tasks d))) (fun _ => ret tt) s1) as [[]?]; done. }
      rewrite Hr in Hb. match type of Hb with ?m s1 = _ => assert (R s1 (m s1).2) as HR end; [|by rewrite Hb in HR].
      apply (op_bind _ O); [apply (op_bind _ O); [by apply op_enter_top|intros; by apply op_ret]|]. intros _.
      apply (op_bind _ O); [apply op_after|]. intros _. apply op_head.
  Qed.
End Begins.

Lemma later_running E d uri s0 s : running E d uri s0 -> later E s0 s -> running E d uri s.
Proof. intros R. induction 1 as [|s _ IH|s _ IH]; [done|by apply running_record|by apply running_step]. Qed.
Lemma begins_running E d uri ins s0 : begins E d uri ins s0 -> running E d uri s0.
Proof.
  intros [->|[ro H]]; [apply running_start|]. pose proof (running_prepare E d uri ro ins) as P. rewrite H in P. by apply P.
Qed.

Lemma later_named E n d uri ins s0 s : reserved E d ("_fctx." +:+ n) -> ins !! ("_fctx." +:+ n) = None ->
  begins E d uri ins s0 -> later E s0 s -> named E n s.
Proof.
  intros Hr Hi Hb L. pose proof (begins_running _ _ _ _ _ Hb) as R0.
  assert (named E n s0) as N0.
  { destruct (begins_eq E (nrel E n 0) (ops_nrel E n 0) (fun s s' => nrel_same E n 0 s s') d uri ins s0 Hb) as (y1 & s1 & a & HR & HI & Hd & Ha & Hat).
    apply HR. rewrite HI. split; [rewrite lookup_singleton; eauto|]. intros i y Hy. rewrite HI in Hy. apply lookup_singleton_Some in Hy as [<- <-]. intros tx. rewrite Hd. intros Htx.
    rewrite Hat. assert (Hm : md_attrs d !! ("_fctx." +:+ n) = None) by (apply (undeclared E n d Hr); apply Hr).
    pose proof (first_named E n d 0 ("", "") ins tx Htx Hi Hm) as Hf. unfold first_attrs in Hf.
    rewrite lookup_union_r in Hf by done. rewrite lookup_union_r in Hf by done.
    rewrite lookup_union_r by done. rewrite lookup_union_r by done. by apply lookup_union_Some_l. }
  induction L as [|s L IH|s L IH]; [done| |].
  - destruct (op_record E (nrel E n 0) (ops_nrel E n 0) s) as [_ H]; [|done]. split; [|done].
    pose proof (later_running _ _ _ _ _ R0 L) as [c R]%running_reach. destruct (inv_main _ _ _ _ _ R) as (y & Hy & _). eauto.
  - apply (step_named E n d Hr uri); [by eapply later_running|done].
Qed.

(** ** What a task sees *)

Lemma sees_attrs s i v : sees s i v -> v_attrs v = match s_insts s !! i with Some y => i_attrs y | None => ∅ end.
Proof. intros (t & x & Hx & <- & ->). unfold view_of. by rewrite Hx. Qed.
Lemma sees_get s i v k : sees s i v -> working_name k = None -> scope_get v k = attr_of s i k.
Proof.
  intros H Hk. unfold scope_get. rewrite Hk, (sees_attrs _ _ _ H). unfold attr_of.
  destruct (s_insts s !! i); case_decide; done || apply lookup_empty.
Qed.

Lemma context_resolves pv E d uri ins s0 s i v n y tx :
  reserved E d ("_fctx." +:+ n) -> ins !! ("_fctx." +:+ n) = None -> begins E d uri ins s0 -> later E s0 s ->
  s_insts s !! i = Some y -> sees s i v -> context_text E (i_def y) i n = Some tx -> resolve pv v (RContext n) = Some (VStr tx).
Proof.
  intros Hr Hi Hb L Hy Hs Ht. cbn [resolve]. rewrite (sees_get _ _ _ _ Hs) by done. unfold attr_of. rewrite Hy. cbn.
  by apply (later_named E n d uri ins s0 s Hr Hi Hb L i y Hy).
Qed.

Lemma input_foreign n id : input_name n -> foreign id n.
Proof.
  intros [Hd He]. split; [|split].
  - intros [->|[m ->]]; [done|]. by apply (Hd "_E" m).
  - intros ->. by apply (Hd "_A" id).
  - intros m ->. apply (Hd "_A" (id +:+ "." +:+ m)). done.
Qed.
Lemma input_working n : input_name n -> working_name n = None.
Proof.
  intros [Hd _]. destruct (working_name n) as [r|] eqn:H; [|done]. exfalso. apply (Hd "_W" r). unfold working_name in H.
  repeat match type of H with context [match ?x with _ => _ end] => destruct x; try done end. by injection H as ->.
Qed.

(** Such an attribute keeps its value. *)
Lemma later_kept E d uri s0 s i n : running E d uri s0 -> later E s0 s -> input_name n -> ~ scoped E n -> kept i n s0 s.
Proof.
  intros R0 L Hn Hs. assert (He : ~ error_name n) by (apply (input_foreign n "" Hn)).
  induction L as [|s L IH|s L IH]; [done| |].
  - eapply kept_trans; [exact IH|]. by apply (op_record E _ (ops_kept i n He)).
  - eapply kept_trans; [exact IH|]. apply (step_kept E d uri); [by eapply later_running|done|].
    intros w t q x _ _. left. split; [by apply input_foreign|done].
Qed.

Lemma ctx_dotless E n a b h : dotless n -> ctx_attrs E a b h !! n = None.
Proof.
  intros Hn. unfold ctx_attrs. apply not_elem_of_list_to_map_1. cbn. rewrite !elem_of_cons.
  intros H. repeat destruct H as [->|H]; [by eapply (Hn "_fctx")..|]. by apply elem_of_nil in H.
Qed.

Lemma inputs_resolve pv E d uri ins s0 s v n :
  input_name n -> ~ scoped E n -> begins E d uri ins s0 -> later E s0 s -> sees s 0 v ->
  resolve pv v (RFlow n) = match ins !! n with Some w => Some w | None => declared d n end.
Proof.
  intros Hn Hs Hb L Hv. cbn [resolve]. rewrite (sees_get _ _ _ _ Hv) by by apply input_working.
  assert (He : ~ error_name n) by (apply (input_foreign n "" Hn)).
  pose proof (begins_running _ _ _ _ _ Hb) as R0.
  destruct (begins_eq E (kept 0 n) (ops_kept 0 n He) (fun s s' => kept_same 0 n s s') d uri ins s0 Hb) as (y1 & s1 & a & HR & HI & Hd & Ha & Hat).
  destruct (later_kept E d uri s0 s 0 n R0 L Hn Hs) as [_ ->].
  { apply HR. rewrite HI, lookup_singleton. eauto. }
  destruct HR as [_ ->]; [rewrite HI, lookup_singleton; eauto|].
  unfold attr_of. rewrite HI, lookup_singleton. cbn. rewrite Hat. destruct (ins !! n) eqn:Hins; [by apply lookup_union_Some_l|].
  rewrite lookup_union_r by done. assert (Hd1 : dotless n) by apply Hn.
  assert (Hz : (ctx_attrs E (d_name d) (inst_id E 0) ("", "") ∪ a) !! n = None).
  { apply lookup_union_None. split; [by apply ctx_dotless|]. apply Ha. by left. }
  rewrite lookup_union, Hz. unfold declared, md_attrs. destruct (d_md d) as [md|]; cbn; [by destruct (md_in md !! n)|by rewrite lookup_empty].
Qed.

(** ** The subflow activity *)

Section Sub.
  Local Set Default Proof Using "Type*".
  Context (E : env) (t i0 : nat) (tk : task) (uri : string).
  Notation id := (t_id tk).
  Context (NI : e_icpt E = None) (HM : mappers_ok E) (NC : e_conc E = false) (SO : settings_ok E).

  Definition made (s : st) : list (vmap * option wval) := calls i0 id (trace s).
  Lemma made_logs s s' : logs no_act s s' -> made s' = made s.
  Proof.
    intros (l & Hl & F). unfold made, trace. rewrite Hl, rev_app_distr. unfold calls. rewrite omap_app.
    assert (Hz : forall l : list event, Forall no_act l -> omap (fun e => match e with
      | EvAct j n ins it => if bool_decide (j = i0 /\ n = id) then Some (ins, it) else None | _ => None end) l = []).
    { clear. induction 1 as [|e l He _ IH]; [done|]. cbn. by destruct e. }
    rewrite (Hz (rev l)), app_nil_r; [done|]. by apply Forall_rev.
  Qed.
  Lemma around_no_act e : around_ev e -> no_act e.
  Proof. intros [H|(? & ? & ->)]; [by destruct e|done]. Qed.

  (** The task instance, its flow, and the number of the next flow. *)
  Definition at_host (n : nat) (s : st) : Prop :=
    (exists x, s_tis s !! t = Some x /\ ti_inst x = i0 /\ ti_task x = tk) /\ is_Some (s_insts s !! i0) /\
    okq s /\ s_sfctr s = n.

  (** Up to the call. *)
  Lemma eval_calls n s (Q : err + bool -> st -> Prop) ac :
    at_host n s -> t_act tk = Some ac ->
    (forall s', at_host n s' -> made s' = made s -> tot (call_activity E t) s' (fun r s2 =>
       match r with inr true => False | _ => Q r s2 end)) -> tot (eval_activity E t) s Q.
  Proof.
    intros (Hx & Hy & Ho & Hn) Hac HQ. destruct HM as (M1 & M2 & M3). unfold eval_activity, recover_eval. apply tot_catch, tot_bind.
    destruct Hx as (x & Hx & Hi & Ht). eapply tot_get_ti; [exact Hx|]. rewrite Ht, Hac.
    assert (Hk : forall s', at_host n s' -> made s' = made s -> tot (ev <- apply_input_icpt E t;
        (if ev : bool then guard_err (ext t (e_inschema E)) (mocked <- has_output_icpt E t;
          (if mocked : bool then set_exec_status E t 3 ;; finish_activity E t
          else r <- call_activity E t; match r with inl e => ret (inl e) | inr false => ret (inr false) | inr true => finish_activity E t end))
        else finish_activity E t)) s' Q).
    { intros s' H' Hm. assert (NT : forall a, task_icpt E a = None) by (intros a; unfold task_icpt; by rewrite NI).
      assert (H2 := H'). destruct H2 as ((x' & Hx' & Hi' & Ht') & (y' & Hy') & _).
      apply tot_bind. unfold apply_input_icpt. apply tot_bind. eapply tot_get_ti; [exact Hx'|]. rewrite NT. apply tot_ret.
      unfold guard_err. apply tot_bind, tot_ext. intros k v _. rewrite M2. unfold has_output_icpt. apply tot_bind, tot_bind.
      unfold icpt_id. apply tot_bind. eapply tot_get_ti; [exact Hx'|]. apply tot_bind. eapply tot_get_inst; [rewrite Hi'; exact Hy'|].
      apply tot_ret. rewrite NT. apply tot_ret. apply tot_bind. eapply tot_mono; [apply HQ; done|].
      intros [e|[]] s2 H2; [by apply tot_ret|done|by apply tot_ret]. }
    unfold guard_err at 1. apply tot_bind. destruct (ac_inmap ac).
    - apply tot_bind. unfold apply_input_mapper. apply tot_bind, tot_ext. intros k v _. destruct (M1 k v) as [m ->].
      apply tot_bind, tot_upd_ti, tot_ret, tot_ret. apply Hk; [|done]. split; [|split; [done|split; [|done]]].
      + eexists. rewrite p_ti_at. cbn [s_tis set_s_tick]. rewrite Hx. split; [reflexivity|done].
      + apply okq_ti. done.
    - apply tot_ret. apply Hk; [|done]. split; [by exists x|done].
  Qed.

  Context (d : defn).
  Definition sub_made (n : nat) (s s' : st) : Prop :=
    exists x1 it y' h, s_tis s' !! t = Some x1 /\ ti_inst x1 = i0 /\ ti_task x1 = tk /\ made s' = made s ++ [(ti_in x1, it)] /\
      s_insts s' !! S n = Some y' /\ i_def y' = d /\ i_host y' = Some t /\
      i_attrs y' = first_attrs E d (S n) h (sub_inputs (DOk d) (ti_in x1)).

  Lemma call_sub n s :
    (forall k, e_def E k uri = DOk d) -> (forall k v, v_inst v = i0 -> v_task v = id -> e_act E k v = subflow_eval (DOk d) uri v) ->
    startable d -> NoDup (t_id <$> start_tasks (d_tasks d)) ->
    at_host n s -> tot (call_activity E t) s (fun r s' => r = inr false /\ sub_made n s s').
  Proof.
    intros HD HA HS HN ((x & Hx & Hi & Ht) & (y & Hy) & Ho & Hn). unfold call_activity. apply tot_bind. eapply tot_get_ti; [exact Hx|].
    cbv zeta. rewrite Hi, Ht. apply tot_bind, tot_log. set (s1 := p_log _ s). apply tot_bind. unfold ext, tick. eapply tot_eq; [reflexivity|].
    set (s2 := set_s_tick _ s1). rewrite HA; [|unfold view_of; change (s_tis s2) with (s_tis s); rewrite Hx; cbn; congruence..].
    assert (Hin : v_in (view_of s2 t) = ti_in x) by (unfold view_of; change (s_tis s2) with (s_tis s); by rewrite Hx).
    unfold subflow_eval. rewrite Hin. cbn [run_act]. apply tot_bind, tot_catch, tot_bind. eapply tot_get_ti; [exact Hx|]. apply tot_bind.
    assert (Hne : ti_inst x <> S (s_sfctr s2)). { rewrite Hi. change (s_sfctr s2) with (s_sfctr s). intros ->. destruct Ho as [_ O2]. rewrite O2 in Hy by lia. done. }
    assert (Hy2 : s_insts s2 !! ti_inst x = Some y) by by rewrite Hi.
    destruct (sub_eq E t uri (sub_inputs (DOk d) (ti_in x)) s2 d x y (HD _) Hx Hy2 Hne)
      as (y1 & s3 & Hs & Hy1 & Hd1 & Hh1 & Ht1 & _ & Ha1 & Hj & HT & HNt & HQ & l & Hl & HP). cbv zeta in *.
    change (s_sfctr s2) with (s_sfctr s) in *. rewrite Hn in *.
    assert (T : tot (enter_top E (S n) (start_entries (d_tasks d))) s3 (fun _ s' => starts (S n) y1 (start_tasks (d_tasks d)) s3 s')).
    { unfold enter_top. apply tot_bind. eapply tot_get_inst; [exact Hy1|]. cbn [enter_tasks]. unfold with_lock. rewrite NC.
      eapply tot_mono; [apply (enter_starts E NC SO _ (S n) (start_tasks (d_tasks d)) s3 y1 Hy1)|].
      - intros tk' Htk'. split_and!; [|by apply HS|by rewrite Ht1, lookup_empty].
        unfold start_tasks in Htk'. apply elem_of_list_In, List.filter_In in Htk' as [_ Htk']. by destruct (t_from tk').
      - done.
      - intros r s' [-> St]. done. }
    assert (Hlg : logs no_act s3 (enter_top E (S n) (start_entries (d_tasks d)) s3).2).
    { pose proof (ops_logs no_act around_no_act) as O. by apply (op_enter_top E _ O). }
    eapply (tot_eq _ _ None (enter_top E (S n) (start_entries (d_tasks d)) s3).2).
    { rewrite Hs, NI. unfold bind. destruct T as (a & s' & -> & _). done. }
    destruct T as (a & s4 & He & St). rewrite He in *. cbn [snd] in *.
    assert (Hx4 : s_tis s4 !! t = Some x). { rewrite (sts_old _ _ _ _ _ St), HT; [done|]. rewrite HNt.
      destruct (decide (t < s_nti s2)%nat); [done|]. destruct Ho as [O1 _]. change (s_nti s2) with (s_nti s) in *. rewrite O1 in Hx by lia. done. }
    apply tot_bind. eapply tot_get_ti; [exact Hx4|]. apply tot_ret.
    apply tot_bind, tot_log. apply tot_bind. set (s5 := p_log _ s4).
    assert (exists s6, set_exec_status E t 1 s5 = (Ok tt, s6) /\ s6 = s5) as (s6 & H6 & ->).
    { unfold set_exec_status. destruct (sts_insts _ _ _ _ _ St) as (m & HI & _).
      assert (Hy5 : s_insts s5 !! i0 = Some y). { change (s_insts s5) with (s_insts s4). rewrite HI, lookup_insert_ne by congruence. rewrite Hj by congruence. done. }
      unfold icpt_id. eexists. split; [|reflexivity]. cbv [bind get_ti get_inst get]. change (s_tis s5) with (s_tis s4). rewrite Hx4. cbn [ret].
      unfold ret. rewrite Hi, Hy5. unfold task_icpt. by rewrite NI. }
    eapply tot_eq; [exact H6|]. apply tot_ret. split; [done|].
    destruct (sts_insts _ _ _ _ _ St) as (m & HI & _).
    exists x, (ti_wd x !! "iteration"), (set_i_tasks m y1), (d_name (i_def y), inst_id E (ti_inst x)). split_and!; try done.
    - assert (logs no_act s2 s3) as L3 by (exists l; split; [done|]; by rewrite Forall_forall).
      assert (logs no_act s4 s5) as L5 by by apply logs_log.
      rewrite (made_logs _ _ L5), (made_logs _ _ Hlg), (made_logs _ _ L3). unfold made, trace. change (s_log s2) with (EvAct i0 id (ti_in x) (ti_wd x !! "iteration") :: s_log s).
      cbn [rev]. unfold calls. rewrite omap_app. cbn. by rewrite bool_decide_eq_true_2.
    - change (s_insts s5) with (s_insts s4). by rewrite HI, lookup_insert.
  Qed.
End Sub.

Section Sub_top.
  Local Set Default Proof Using "Type*".
  Context (E : env) (d0 : defn) (uri0 : string).
  Context (NI : e_icpt E = None) (HM : mappers_ok E) (NC : e_conc E = false) (SO : settings_ok E).

  Lemma eval_begin s t x r s1 : running E d0 uri0 s -> evaluates E s t x r s1 -> ti_status x <> TWaiting -> t_type (ti_task x) = TBasic ->
    exists s0, at_host t (ti_inst x) (ti_task x) (s_sfctr s) s0 /\ s_tis s0 !! t = Some x /\
      made (ti_inst x) (ti_task x) s0 = made (ti_inst x) (ti_task x) s /\ ti_status x <> TSkipped /\ t_act (ti_task x) <> None /\
      basic_eval E t s0 = (Ok r, s1) /\
      (exists l, s_log s1 = l ++ s_log s).
  Proof.
    intros R Ev Hw Hb. destruct (evaluates_quiet E d0 uri0 _ _ _ _ _ R Ev) as (w' & q' & _ & _ & _ & Hq' & _ & _ & _ & Q & Ho & _).
    destruct Ev as (Hm & Hx & Hs & Hd & w & q & Hq & He). rewrite Hq in Hq'. injection Hq' as <- <-. rewrite bool_decide_eq_false_2 in He by done. rewrite Hb in He. cbn [beh_eval] in He.
    apply running_reach in R as [c R].
    assert (ti_is s t (ti_inst x) (ti_task x)) as Ht by (exists x; done).
    destruct (inv_task _ _ _ _ _ R _ _ _ Ht) as (d' & h & (y' & Hy' & _) & _ & Hac).
    change (set_s_log (EvQDel w (ti_inst x) (t_id (ti_task x)) :: s_log s) (set_s_queue q (set_s_step (S (s_step s)) s))) with (popped w t x q s) in He.
    exists (popped w t x q s). split; [split; [by exists x|split; [eauto|done]]|]. split; [done|]. split; [apply made_logs; exists [EvQDel w (ti_inst x) (t_id (ti_task x))]; split; [done|by repeat constructor]|].
    do 3 (split; [done|]). destruct (Q Ho) as (_ & _ & _ & _ & _ & _ & _ & _ & _ & l & Hl & _). exists (l ++ [EvQDel w (ti_inst x) (t_id (ti_task x))]).
      rewrite Hl. cbn. by rewrite <- app_assoc.
  Qed.

  Lemma basic_sub t i0 tk s (Q : err + bool -> st -> Prop) n :
    tot (eval_activity E t) s (fun r s' => match r with inl e => retriable e = false | inr b => b = false end /\
      (exists x1, s_tis s' !! t = Some x1) /\ Q r s') ->
    at_host t i0 tk n s -> (forall x, s_tis s !! t = Some x -> ti_status x <> TSkipped) ->
    tot (basic_eval E t) s (fun r s' => match r with inl e => Q (inl e) s' | inr z => z = EvalWait /\ Q (inr false) s' end).
  Proof.
    intros He ((x & Hx & Hi & Ht) & _) Hs. unfold basic_eval. apply tot_bind. eapply tot_get_ti; [exact Hx|]. rewrite bool_decide_eq_false_2 by by apply Hs.
    apply tot_bind. unfold eval_retry. apply tot_bind. eapply tot_mono; [exact He|]. intros r s1 (Hr & (x1 & Hx1) & HQ).
    apply tot_bind. eapply tot_get_ti; [exact Hx1|]. destruct r as [e|b].
    - rewrite Hr. destruct (t_retry (ti_task x1)); apply tot_ret, tot_ret; done.
    - subst b. apply tot_ret, tot_ret. done.
  Qed.

  Lemma made_calls i0 tk s s1 c : made i0 tk s1 = made i0 tk s ++ [c] -> (exists l, s_log s1 = l ++ s_log s) -> calls i0 (t_id tk) (happened s s1) = [c].
  Proof.
    intros Hm [l Hl]. unfold made in Hm. unfold happened. unfold trace in *. rewrite Hl, rev_app_distr in *. rewrite drop_app.
    unfold calls in *. rewrite omap_app in Hm. by apply app_inv_head in Hm.
  Qed.

  Lemma subflow_inputs pv s t x r s1 uri d :
    running E d0 uri0 s -> evaluates E s t x r s1 -> ti_status x <> TWaiting -> t_type (ti_task x) = TBasic ->
    starts_subflow E x uri (DOk d) -> startable d -> NoDup (t_id <$> start_tasks (d_tasks d)) ->
    r = inr EvalWait /\
    exists ins it y', calls (ti_inst x) (t_id (ti_task x)) (happened s s1) = [(ins, it)] /\
      s_insts s !! S (s_sfctr s) = None /\
      s_insts (do_step E s).2 !! S (s_sfctr s) = Some y' /\ i_def y' = d /\ i_host y' = Some t /\
      forall s' v n, later E (do_step E s).2 s' -> sees s' (S (s_sfctr s)) v -> input_name n -> ~ scoped E n ->
        resolve pv v (RFlow n) = if declared d n then Some (default VNil (ins !! n)) else None.
  Proof.
    intros R Ev Hw Hb [HD HA] HS HN. destruct (eval_begin _ _ _ _ _ R Ev Hw Hb) as (s0 & H0 & Hx0 & Hm0 & Hsk & Hac & He & Hlg).
    destruct (t_act (ti_task x)) as [ac|] eqn:Hac'; [|done].
    set (n0 := s_sfctr s) in *. set (i0 := ti_inst x) in *. set (tk := ti_task x) in *.
    set (G := sub_made E t i0 tk d n0 s).
    assert (T : tot (basic_eval E t) s0 (fun r s' => match r with inl e => False | inr z => z = EvalWait /\ G s' end)).
    { eapply (basic_sub t i0 tk s0 (fun r s' => match r with inl e => False | inr z => G s' end)); [|exact H0|intros x' Hx'; congruence].
      eapply (eval_calls E t i0 tk NI HM NC SO n0 s0 _ ac H0 Hac'). intros s' H' Hm'.
      eapply tot_mono; [by apply (call_sub E t i0 tk uri NI HM NC SO d n0 s')|].
      intros r' s2 (-> & (x1 & it & y' & h & G1 & G2 & G3 & G4 & G5)). split; [done|]. split; [eauto|].
      exists x1, it, y', h. split_and!; try done; [|apply G5..]. rewrite G4, Hm', Hm0. done. }
    destruct T as (r' & s' & Hr & HG). rewrite He in Hr. injection Hr as -> ->. destruct r' as [e|z]; [done|]. destruct HG as [-> (x1 & it & y' & h & G1 & G2 & G3 & G4 & G5 & G6 & G7 & G8)].
    split; [done|]. exists (ti_in x1), it, y'.
    assert (Hst : s_insts (do_step E s).2 = s_insts s').
    { rewrite (evaluates_step _ _ _ _ _ _ Ev). cbn [conclude]. unfold set_task_status, catch, bind, get_ti, bind, get. rewrite G1. done. }
    split; [by apply made_calls|]. split.
    { apply running_reach in R as [c R]. pose proof (fresh_okq _ (reach_fresh _ _ _ _ _ R)) as [_ O2]. apply O2. fold n0. lia. }
    split; [by rewrite Hst|]. split; [done|]. split; [done|].
    intros s2 v n L Hv Hn Hns. cbn [resolve]. rewrite (sees_get _ _ _ _ Hv) by by apply input_working.
    assert (R' : running E d0 uri0 (do_step E s).2) by by apply running_step.
    destruct (later_kept E d0 uri0 _ _ (S n0) n R' L Hn Hns) as [_ ->]; [rewrite Hst, G5; eauto|].
    unfold attr_of. rewrite Hst, G5. cbn. rewrite G8. unfold first_attrs, sub_inputs.
    assert (Hc : ctx_attrs E (d_name d) (inst_id E (S n0)) h !! n = None) by (apply ctx_dotless; apply Hn).
    revert Hc. generalize (ctx_attrs E (d_name d) (inst_id E (S n0)) h). intros ca Hc.
    unfold declared, md_attrs. destruct (d_md d) as [md|]; cbn.
    - rewrite lookup_union, map_lookup_imap. destruct (md_in md !! n) eqn:Hmd; cbn; rewrite lookup_union, Hmd, Hc; done.
    - by rewrite !lookup_union, !lookup_empty, Hc.
  Qed.

  Lemma subflow_missing s t x r s1 uri :
    running E d0 uri0 s -> evaluates E s t x r s1 -> ti_status x <> TWaiting -> t_type (ti_task x) = TBasic ->
    starts_subflow E x uri DNil -> r = inl (EOther ("unable to resolve subflow: " +:+ uri)) /\ s_sfctr s1 = s_sfctr s.
  Proof.
    intros R Ev Hw Hb [HD HA]. destruct (eval_begin _ _ _ _ _ R Ev Hw Hb) as (s0 & H0 & Hx0 & Hm0 & Hsk & Hac & He & Hlg).
    destruct (t_act (ti_task x)) as [ac|] eqn:Hac'; [|done].
    set (n0 := s_sfctr s) in *. set (i0 := ti_inst x) in *. set (tk := ti_task x) in *.
    set (G := fun (r : err + bool) (s' : st) => r = inl (EOther ("unable to resolve subflow: " +:+ uri)) /\ s_sfctr s' = n0).
    assert (T : tot (basic_eval E t) s0 (fun r s' => match r with inl e => G (inl e) s' | inr z => z = EvalWait /\ G (inr false) s' end)).
    { eapply (basic_sub t i0 tk s0 G); [|exact H0|intros x' Hx'; congruence].
      eapply (eval_calls E t i0 tk NI HM NC SO n0 s0 _ ac H0 Hac'). intros s' ((x' & Hx' & Hi & Ht) & (y & Hy) & Ho & Hn) _.
      unfold call_activity. apply tot_bind. eapply tot_get_ti; [exact Hx'|].
      cbv zeta. rewrite Hi, Ht. apply tot_bind, tot_log. set (s2 := p_log _ s'). apply tot_bind. unfold ext, tick. eapply tot_eq; [reflexivity|].
      set (s3 := set_s_tick _ s2). rewrite HA; [|unfold view_of; change (s_tis s3) with (s_tis s'); rewrite Hx'; cbn; congruence..].
      unfold subflow_eval. cbn [run_act]. apply tot_bind, tot_catch, tot_bind. eapply tot_get_ti; [exact Hx'|]. apply tot_bind.
      eapply (tot_eq _ _ (Some (EOther ("unable to resolve subflow: " +:+ uri))) (set_s_tick (S (s_tick s3)) s3)).
      { unfold start_subflow, tick, bind at 1, bind at 1, get, bind at 1, modify, ret at 1. by rewrite HD. }
      apply tot_bind. eapply tot_get_ti; [exact Hx'|]. apply tot_ret. cbn [name_err sub_error]. apply tot_bind, tot_log. apply tot_bind.
      set (s4 := p_log _ _).
      assert (NT : forall a, task_icpt E a = None) by (intros a; unfold task_icpt; by rewrite NI).
      assert (Hid : forall s5 (Q : string -> st -> Prop), s_tis s5 = s_tis s' -> is_Some (s_insts s5 !! i0) -> (forall a, Q a s5) -> tot (icpt_id t) s5 Q).
      { intros s5 Q HT [y5 H5] HQ. unfold icpt_id. apply tot_bind. eapply tot_get_ti; [rewrite HT; exact Hx'|].
        apply tot_bind. eapply tot_get_inst; [rewrite Hi; exact H5|]. apply tot_ret. apply HQ. }
      unfold set_exec_status. apply tot_bind. apply Hid; [done|cbn; eauto|]. intros a. rewrite NT. apply tot_ret.
      apply tot_bind. eapply tot_get_inst; [exact Hy|]. apply tot_bind.
      apply (tot_mono _ _ (fun _ s5 => s_tis s5 = s_tis s' /\ s_sfctr s5 = n0 /\ is_Some (s_insts s5 !! i0))).
      { destruct (i_handling y); [apply tot_ret; split_and!; [done|done|cbn; eauto]|].
        unfold set_value, set_values. eapply tot_eq; [eapply set_attrs_eq; exact Hy|]. split_and!; [done|done|]. apply some_alter. cbn. eauto. }
      intros _ s5 (HT & HN & (y5 & H5)). apply tot_bind. unfold set_value, set_values. eapply tot_eq; [eapply set_attrs_eq; exact H5|].
      set (s6 := p_set _ _ _ s5). assert (H6 : is_Some (s_insts s6 !! i0)) by (apply some_alter; eauto).
      apply tot_bind, tot_catch, tot_bind. unfold apply_asserts. apply tot_bind. apply Hid; [done|done|]. intros a'. rewrite NT. apply tot_ret, tot_ret, tot_ret.
      split; [done|]. split; [exists x'; by rewrite <- Hx', <- HT|]. split; [done|]. exact HN. }
    destruct T as (r' & s' & Hr & HG). rewrite He in Hr. injection Hr as -> ->. destruct r' as [e|z]; [|by destruct HG as [_ [? _]]].
    destruct HG as [Hr Hn]. split; [|done]. by injection Hr as ->.
  Qed.
End Sub_top.

(** References to outputs. *)
Lemma output_resolves pv E d uri s t x r s1 x1 ac ns n w s' v :
  e_icpt E = None -> dotless_flow d -> dotless_env E -> ~ scoped E (out_key (t_id (ti_task x)) n) ->
  running E d uri s -> evaluates E s t x r s1 -> ti_status x <> TWaiting -> succeeded (ti_task x) r ->
  (forall lc, t_loop (ti_task x) = Some lc -> lc_acc lc = true -> lc_accapply lc = true) ->
  t_act (ti_task x) = Some ac -> ac_outs ac = Some ns -> n ∈ ns -> n <> "" ->
  s_tis s1 !! t = Some x1 -> ti_out x1 !! n = Some w ->
  meanwhile E (ti_inst x) (t_id (ti_task x)) (do_step E s).2 s' -> sees s' (ti_inst x) v ->
  resolve pv v (RActivity (t_id (ti_task x)) n) = Some w.
Proof.
  intros H1 H2 H3 H4 H5 H6 H7 H8 H9 H10 H11 H12 Hn H13 H14 H15 Hv. cbn [resolve].
  destruct (String.eqb n "") eqn:He; [by apply String.eqb_eq in He|].
  rewrite (sees_get _ _ _ _ Hv) by done. by eapply own_outputs.
Qed.

(** References to the error, in the error handler. *)
Lemma error_resolves pv E d uri s t x e s1 h v :
  running E d uri s -> built d -> cov_ok E -> settings_ok E -> e_conc E = false -> d_eh d = Some h ->
  (forall tk, tk ∈ start_tasks (eh_tasks h) -> t_act tk <> None) ->
  evaluates E s t x (inl e) s1 -> ti_inst x = 0%nat -> no_error_link (ti_task x) ->
  (forall y, s_insts s !! 0%nat = Some y -> i_handling y = false) ->
  sees (do_step E s).2 0 v ->
  describes (ti_task x) e (resolve pv v (RError "" "")) /\ describes (ti_task x) e (resolve pv v (RError (t_id (ti_task x)) "")).
Proof.
  intros H1 H2 H3 H4 H5 H6 H7 H8 H9 H10 H11 Hv.
  destruct (handler_takes_over _ _ _ _ _ _ _ _ _ H1 H2 H3 H4 H5 H6 H7 H8 H9 H10 H11) as (y' & Hy & _ & _ & _ & _ & _ & D1 & D2).
  assert (K : forall n, i_attrs y' !! n = attr_of (do_step E s).2 0 n) by (intros n; unfold attr_of; by rewrite Hy).
  assert (R : forall n w, scope_get v n = Some w -> mbind (fun w => Some w) (scope_get v n) = scope_get v n) by (intros n w ->; done).
  assert (D : forall tk n, describes tk e (scope_get v n) -> describes tk e (mbind (fun w => Some w) (scope_get v n))).
  { intros tk n H. destruct (scope_get v n) eqn:Hn; [exact H|]. destruct H as (? & ? & _). done. }
  split; cbn [resolve].
  - apply (D _ "_E"). by rewrite (sees_get _ _ _ _ Hv), <- K.
  - destruct (String.eqb (t_id (ti_task x)) "") eqn:Hid.
    + apply (D _ "_E"). by rewrite (sees_get _ _ _ _ Hv), <- K.
    + apply D. by rewrite (sees_get _ _ _ _ Hv), <- K.
Qed.

(** ** Attributes that the steps of other tasks leave alone *)

(** The attributes of a started flow that a step keeps. *)
Lemma step_names E d uri s i y :
  running E d uri s -> s_insts s !! i = Some y -> i_status y <> FNotStarted ->
  exists y', s_insts (do_step E s).2 !! i = Some y' /\ i_status y' <> FNotStarted /\
    forall k, (forall w t q x, s_queue s = (w, t) :: q -> s_tis s !! t = Some x -> ti_inst x <> i \/ ~ named_for E (t_id (ti_task x)) k) ->
      i_attrs y' !! k = i_attrs y !! k.
Proof.
  intros [c R]%running_reach Hy Hst. destruct (do_step_cases E s) as [->|(w & t & q & x & y0 & Hq & Hx & Hy0 & Ha & ->)]; [by exists y|].
  pose proof (popped_reach _ _ _ _ _ _ _ _ _ _ R Hq Hx Hy0 Ha) as R1. pose proof (exec_asteps _ _ _ (Some t) t _ R1) as St.
  set (s1 := popped w t x q s) in *.
  assert (exists y', s_insts (exec_task E t s1).2 !! i = Some y' /\ i_status y' <> FNotStarted /\
    ti_is (exec_task E t s1).2 t (ti_inst x) (ti_task x) /\
    forall k, i <> ti_inst x \/ ~ named_for E (t_id (ti_task x)) k -> i_attrs y' !! k = i_attrs y !! k) as (y' & H1 & H2 & _ & H3).
  { eapply (asteps_inv E (Some t) (fun s' => exists y', s_insts s' !! i = Some y' /\ i_status y' <> FNotStarted /\
      ti_is s' t (ti_inst x) (ti_task x) /\
      forall k, i <> ti_inst x \/ ~ named_for E (t_id (ti_task x)) k -> i_attrs y' !! k = i_attrs y !! k)); [exact St| |].
    - exists y. split_and!; [done|done|by exists x|done].
    - intros a b (y' & Hy' & Hs' & Ht' & Hk') S1.
      destruct (astep_attrs E _ _ _ _ _ _ _ S1 Ht' Hy' Hs') as (y2 & Hy2 & Hs2 & Ha2). exists y2.
      split_and!; [done|done|eauto using ti_is_grows, astep_grows|]. intros k Hk. rewrite Ha2 by done. by apply Hk'. }
  exists y'. split_and!; [done|done|]. intros k Hk. apply H3. destruct (Hk _ _ _ _ Hq Hx) as [?|?]; [by left|by right].
Qed.

(** The error of a task stays while others are evaluated. *)
Lemma error_stays E d uri s0 s i a y :
  running E d uri s0 -> meanwhile E i a s0 s -> ~ scoped E ("_E." +:+ a) -> s_insts s0 !! i = Some y -> i_status y <> FNotStarted ->
  exists y', s_insts s !! i = Some y' /\ i_status y' <> FNotStarted /\ i_attrs y' !! ("_E." +:+ a) = i_attrs y !! ("_E." +:+ a).
Proof.
  intros R0 H Hs Hy Hst. induction H as [|s H (y' & H1 & H2 & H3)|s H (y' & H1 & H2 & H3) Hq]; [eauto| |].
  - exists y'. split; [|done]. by rewrite (proj1 (record_same E s)).
  - destruct (step_names E d uri s i y') as (y2 & G1 & G2 & G3); [by eapply meanwhile_running|done|done|].
    exists y2. split_and!; [done|done|]. rewrite G3; [done|]. intros w t q x Hq1 Hx.
    destruct (Hq _ _ _ _ Hq1 Hx) as [?|Hne]; [by left|right]. intros [?|[?|[He|[?|[n ?]]]]]; try done.
    by apply (inj _) in He.
Qed.
Lemma error_reference_stays pv E d uri s0 s i a n y v0 v :
  running E d uri s0 -> s_insts s0 !! i = Some y -> i_status y <> FNotStarted -> a <> "" -> ~ scoped E ("_E." +:+ a) ->
  meanwhile E i a s0 s -> sees s0 i v0 -> sees s i v -> resolve pv v (RError a n) = resolve pv v0 (RError a n).
Proof.
  intros R Hy Hst Hne Hs M V0 V. destruct (error_stays E d uri s0 s i a y) as (y' & Hy' & _ & He); [done..|]. cbn [resolve].
  destruct (String.eqb a "") eqn:Ha; [by apply String.eqb_eq in Ha|].
  rewrite (sees_get _ _ _ _ V0), (sees_get _ _ _ _ V) by done. unfold attr_of. rewrite Hy, Hy'. cbn. by rewrite He.
Qed.

(** ** The error being handled *)

(** A step of a flow that handles an error leaves the error alone, unless the flow has just failed. *)
Lemma astep_error E t0 a b i y :
  (forall n v l e, e_link E n v l <> XErr e) -> ~ scoped E "_E" ->
  astep E (Some t0) a b -> s_insts a !! i = Some y -> i_status y <> FNotStarted -> i_handling y = true ->
  exists y', s_insts b !! i = Some y' /\ i_status y' <> FNotStarted /\ i_handling y' = true /\
    (i_attrs y' !! "_E" = i_attrs y !! "_E" \/ lately a (EvFlowStatus i FFailed)).
Proof.
  intros Hl Hs St Hy Hst Hh.
  assert (forall j f, (forall y0, i_status (f y0) = i_status y0 \/ i_status (f y0) <> FNotStarted) ->
    (forall y0, i_handling y0 = true -> i_handling (f y0) = true) ->
    (j = i -> i_attrs (f y) !! "_E" = i_attrs y !! "_E" \/ lately a (EvFlowStatus i FFailed)) ->
    exists y', s_insts (p_inst j f a) !! i = Some y' /\ i_status y' <> FNotStarted /\ i_handling y' = true /\
      (i_attrs y' !! "_E" = i_attrs y !! "_E" \/ lately a (EvFlowStatus i FFailed))) as Hi.
  { intros j f H1 H2 H3. cbn. destruct (decide (j = i)) as [->|Hne].
    - exists (f y). rewrite lookup_alter, Hy. split_and!; [done| |by apply H2|auto]. by destruct (H1 y) as [-> | ?].
    - exists y. rewrite lookup_alter_ne by done. split_and!; auto. }
  destruct St; try (exists y; by auto);
    try (apply Hi; [intros; (by left) || (by right)|done|by left]; fail).
  - (* S_set *) apply Hi; [intros; by left|done|]. intros ->. rewrite Hy in H. injection H as <-.
    destruct H0 as [(t & tk' & _ & _ & _ & Hm)|[? _]]; [|done]. cbn.
    destruct (m !! "_E") as [v|] eqn:Hk; [|left; by apply lookup_union_r].
    destruct (Hm ltac:(eauto)) as [?|[?|[?|(n & v0 & l & e & He)]]]; [congruence|by right|done|by destruct (Hl _ _ _ _ He)].
  - (* S_idata *) apply Hi; [intros y0|intros y0|intros _].
    + destruct (H y0) as (_ & _ & -> & _). by left.
    + pose proof (H y0) as H0. unfold inst_data in H. decompose [and] H0. congruence.
    + left. by destruct (H y) as (_ & _ & _ & _ & _ & _ & _ & -> & _).
  - (* S_sub *) exists y. split; [|by auto]. cbn [s_insts p_sub p_log set_s_log set_s_insts].
    rewrite lookup_insert_ne; [done|]. congruence.
Qed.

Lemma step_error E d uri s i y :
  (forall n v l e, e_link E n v l <> XErr e) -> ~ scoped E "_E" ->
  running E d uri s -> s_insts s !! i = Some y -> i_status y <> FNotStarted -> i_handling y = true ->
  exists l y', s_log (do_step E s).2 = l ++ s_log s /\ s_insts (do_step E s).2 !! i = Some y' /\ i_status y' <> FNotStarted /\ i_handling y' = true /\
    (i_attrs y' !! "_E" = i_attrs y !! "_E" \/ EvFlowStatus i FFailed ∈ l).
Proof.
  intros Hl Hs [c R]%running_reach Hy Hst Hh.
  destruct (do_step_cases E s) as [->|(w & t & q & x & y0 & Hq & Hx & Hy0 & Ha & ->)]; [exists [], y; split_and!; by auto|].
  pose proof (popped_reach _ _ _ _ _ _ _ _ _ _ R Hq Hx Hy0 Ha) as R1. pose proof (exec_asteps _ _ _ (Some t) t _ R1) as St.
  pose proof (reach_fresh _ _ _ _ _ R1) as F1. set (s1 := popped w t x q s) in *.
  assert (forall l a, s_log a = l ++ s_log s1 -> lately a (EvFlowStatus i FFailed) -> EvFlowStatus i FFailed ∈ l) as Hlate.
  { intros l a Hla (l1 & l2 & Hl12 & Hno). rewrite Hla in Hl12. change (s_log s1) with (EvQDel w (ti_inst x) (t_id (ti_task x)) :: s_log s) in Hl12.
    apply app_eq_inv in Hl12 as [(k & -> & Hk)|(k & -> & Hk)].
    - destruct k as [|e k]; cbn in Hk; [discriminate Hk|]. injection Hk as <- _. apply elem_of_app. right. left.
    - destruct k as [|e k]; cbn in Hk; [discriminate Hk|]. injection Hk as <- _. destruct (Hno w (ti_inst x) (t_id (ti_task x))). apply elem_of_app. right. left. }
  destruct (asteps_ind2 E (Some t) s1 (fun l s' => exists y', s_insts s' !! i = Some y' /\ i_status y' <> FNotStarted /\ i_handling y' = true /\
      (i_attrs y' !! "_E" = i_attrs y !! "_E" \/ EvFlowStatus i FFailed ∈ l)) F1) with (s' := (exec_task E t s1).2) as (l & Hlog & y' & H1 & H2 & H3 & H4); [ | | |exact St|].
  - exists y. split_and!; auto.
  - intros l a b F Hla (y' & G1 & G2 & G3 & G4) S1 _. destruct (astep_error E t a b i y' Hl Hs S1 G1 G2 G3) as (y2 & K1 & K2 & K3 & K4).
    exists y2. split_and!; [done..|]. destruct K4 as [->|K4]; [done|right; by eapply Hlate].
  - intros l a b e F Hla (y' & G1 & G2 & G3 & G4) S1 _. destruct (astep_error E t a b i y' Hl Hs S1 G1 G2 G3) as (y2 & K1 & K2 & K3 & K4).
    exists y2. split_and!; [done..|]. rewrite elem_of_cons. destruct K4 as [->|K4]; [by destruct G4; auto|right; right; by eapply Hlate].
  - exists (l ++ [EvQDel w (ti_inst x) (t_id (ti_task x))]), y'. split_and!; [by rewrite Hlog, <- app_assoc|done..|].
    destruct H4; [by left|right]. apply elem_of_app. by left.
Qed.

(** The error being handled stays until the flow fails. *)
Lemma error_being_handled pv E d uri s0 s i n y v0 v :
  (forall n v l e, e_link E n v l <> XErr e) -> ~ scoped E "_E" ->
  running E d uri s0 -> s_insts s0 !! i = Some y -> i_status y <> FNotStarted -> i_handling y = true ->
  later E s0 s -> EvFlowStatus i FFailed ∉ happened s0 s ->
  sees s0 i v0 -> sees s i v -> resolve pv v (RError "" n) = resolve pv v0 (RError "" n).
Proof.
  intros Hl Hs R Hy Hst Hh L Hn V0 V.
  assert (exists l y', s_log s = l ++ s_log s0 /\ s_insts s !! i = Some y' /\ i_status y' <> FNotStarted /\ i_handling y' = true /\
    (i_attrs y' !! "_E" = i_attrs y !! "_E" \/ EvFlowStatus i FFailed ∈ l)) as (l & y' & Hlog & Hy' & _ & _ & He).
  { clear Hn V. induction L as [|s L IH|s L IH].
    - exists [], y. split_and!; by auto.
    - destruct IH as (l & y' & G1 & G2 & G3). assert (exists l', s_log (record_state E s).2 = l' ++ s_log s) as [l' Hl'].
      { unfold record_state. destruct (e_rec E) as [m|]; [|by exists []]. unfold bind.
        destruct (record_snapshot m), (record_steps m), (e_ext E); cbn; first [by exists []|by eexists [_]|by eexists [_; _]]. }
      exists (l' ++ l), y'. rewrite (proj1 (record_same E s)), Hl', G1, elem_of_app. split_and!; [by rewrite app_assoc|tauto..].
    - destruct IH as (l & y' & G1 & G2 & G3 & G4 & G5). destruct (step_error E d uri s i y') as (l2 & y2 & K1 & K2 & K3 & K4 & K5); [done|done|by eapply later_running|done|done|done|].
      exists (l2 ++ l), y2. split_and!; [by rewrite K1, G1, app_assoc|done..|]. rewrite elem_of_app. destruct K5 as [->|K5]; [|by auto]. destruct G5; auto. }
  destruct He as [He|He].
  - cbn [resolve]. change (String.eqb "" "") with true. cbv iota. rewrite (sees_get _ _ _ _ V0), (sees_get _ _ _ _ V) by done. unfold attr_of. rewrite Hy, Hy'. cbn. by rewrite He.
  - destruct Hn. unfold happened. rewrite (trace_logs _ _ _ Hlog), drop_app. rewrite elem_of_list_In, <- in_rev. by apply elem_of_list_In.
Qed.
