(** The order in which the successors of a finished task are scheduled (proofs; no Go counterpart). *)
From Verif Require Export Enter.
Local Open Scope Z_scope.

Definition name_at (s : st) (p : nat * nat) : option (nat * string) :=
  (fun x => (ti_inst x, t_id (ti_task x))) <$> s_tis s !! p.2.
Definition known (s s' : st) : Prop := forall u x, s_tis s !! u = Some x ->
  exists x', s_tis s' !! u = Some x' /\ ti_inst x' = ti_inst x /\ ti_task x' = ti_task x.
Lemma known_refl s : known s s.
Proof. intros u x Hx. eauto. Qed.
Lemma known_trans a b c : known a b -> known b c -> known a c.
Proof.
  intros H1 H2 u x Hx. destruct (H1 u x Hx) as (x1 & Hx1 & A1 & A2). destruct (H2 u x1 Hx1) as (x2 & Hx2 & B1 & B2).
  exists x2. split_and!; congruence.
Qed.
Lemma known_names s s' (q : list (nat * nat)) : known s s' -> (forall p, p ∈ q -> is_Some (s_tis s !! p.2)) ->
  omap (name_at s') q = omap (name_at s) q.
Proof.
  intros K. induction q as [|p q IH]; intros H; [done|]. cbn [omap list_omap].
  destruct (H p) as [x Hx]; [left|]. destruct (K _ _ Hx) as (x' & Hx' & Hi & Ht).
  assert (name_at s' p = name_at s p) as -> by (unfold name_at; rewrite Hx, Hx'; cbn; by rewrite Hi, Ht).
  destruct (name_at s p); [f_equal|]; apply IH; intros p' Hp'; apply H; by right.
Qed.

(** The queue grows at its end, the task instances stay. *)
Definition tail_grows (s s' : st) : Prop :=
  (s_nti s <= s_nti s')%nat /\ (exists q, s_queue s' = s_queue s ++ q) /\
  ((forall u, (s_nti s <= u)%nat -> s_tis s !! u = None) -> known s s' /\ (forall u, (s_nti s' <= u)%nat -> s_tis s' !! u = None)).
Lemma ops_tail : ops tail_grows.
Proof.
  assert (forall s s', s_tis s' = s_tis s -> s_nti s' = s_nti s -> (exists q, s_queue s' = s_queue s ++ q) -> tail_grows s s') as Hsame.
  { intros s s' H1 H2 H3. split_and!; [by rewrite H2|done|]. intros F. unfold known. rewrite H1, H2. split; [|done]. intros u x Hx. eauto. }
  assert (forall s : st, exists q, s_queue s = s_queue s ++ q) as Hnil by (intros s; exists []; by rewrite app_nil_r).
  split; try (intros; apply Hsame; [done|done|first [done|exists []; symmetry; apply app_nil_r]]).
  - intros a b c (N1 & (q1 & Q1) & H1) (N2 & (q2 & Q2) & H2). split_and!; [lia|exists (q1 ++ q2); by rewrite Q2, Q1, app_assoc|].
    intros F. destruct (H1 F) as [K1 F1]. destruct (H2 F1) as [K2 F2]. split; [by eapply known_trans|done].
  - intros t f s Hf. split_and!; [done|exists []; symmetry; apply app_nil_r|]. intros F. split.
    + intros u x Hx. cbn. destruct (decide (t = u)) as [->|].
      * exists (f x). rewrite lookup_alter, Hx. split; [done|]. by destruct (Hf x) as (? & ? & _).
      * exists x. by rewrite lookup_alter_ne.
    + intros u Hu. cbn in *. specialize (F u Hu). destruct (decide (t = u)) as [->|]; [by rewrite lookup_alter, F|by rewrite lookup_alter_ne].
  - intros x s. split_and!; [cbn; lia|exists []; symmetry; apply app_nil_r|]. intros F. split.
    + intros u x' Hx'. exists x'. cbn. rewrite lookup_insert_ne; [done|]. intros <-. by rewrite F in Hx'.
    + intros u Hu. cbn in *. rewrite lookup_insert_ne by lia. apply F. lia.
Qed.

Section Fan.
  Local Set Default Proof Using "Type*".
  Context (E : env) (NC : e_conc E = false) (SO : settings_ok E).

  Definition reg_ok (i : nat) (y : inst) (ts : list task) (s : st) : Prop :=
    forall tk, tk ∈ ts -> forall u, i_tasks y !! t_id tk = Some u -> exists x, s_tis s !! u = Some x /\ ti_inst x = i /\ ti_task x = tk.

  Lemma enter_followed skip i es r s y (G : out (option err) * st -> Prop) :
    s_insts s !! i = Some y -> (forall u, (s_nti s <= u)%nat -> s_tis s !! u = None) ->
    (forall tk, tk ∈ es.*1 -> t_act tk <> None /\ verdict y tk <> Some true) ->
    (forall a b, a ∈ es.*1 -> b ∈ es.*1 -> t_id a = t_id b -> a = b) ->
    reg_ok i y es.*1 s ->
    (forall s' q, (exists l, s_log s' = l ++ s_log s) -> s_queue s' = s_queue s ++ q -> known s s' -> (forall u, (s_nti s' <= u)%nat -> s_tis s' !! u = None) ->
       Forall2 (fun p tk => exists x, s_tis s' !! p.2 = Some x /\ ti_inst x = i /\ ti_task x = tk) q
         (List.filter (fun tk => bool_decide (verdict y tk = Some false)) es.*1) ->
       gn G (enter_list E skip i r) s') ->
    gn G (enter_list E skip i (es ++ r)) s.
  Proof.
    revert s y. induction es as [|[tk c] es IH]; intros s y Hy F Hts Hinj Hreg HQ.
    { apply (HQ s []); [by exists []|by rewrite app_nil_r|apply known_refl|done|constructor]. }
    cbn [app]. destruct (Hts tk) as [Ha Hv]; [left|].
    assert (forall t z s1, enters i y tk t z s s1 -> exists y1, s_insts s1 !! i = Some y1 /\
      (forall u, (s_nti s1 <= u)%nat -> s_tis s1 !! u = None) /\ (forall tk', verdict y1 tk' = verdict y tk') /\ known s s1 /\
      reg_ok i y1 es.*1 s1 /\ exists x, s_tis s1 !! t = Some x /\ ti_inst x = i /\ ti_task x = tk) as Hen.
    { intros t z s1 [H1 H2 (x & H3 & Hxi & Hxt & _) _ _ _]. eexists. split; [rewrite H2; apply lookup_insert|].
      assert ((t < s_nti s1)%nat /\ (s_nti s <= s_nti s1)%nat) as [Hlt Hle].
      { destruct H1 as [[Ht Hn]|(_ & -> & Hn)]; rewrite Hn; [|lia]. split; [|lia].
        destruct (Hreg tk ltac:(left) t Ht) as (x0 & Hx0 & _). destruct (decide (s_nti s <= t)%nat) as [Hc|]; [|lia]. by rewrite F in Hx0. }
      assert (known s s1) as K.
      { intros u x' Hx'. rewrite H3. destruct (decide (t = u)) as [->|]; [|exists x'; by rewrite lookup_insert_ne].
        exists x. rewrite lookup_insert. split; [done|]. destruct H1 as [[Ht Hn]|(_ & -> & Hn)]; [|by rewrite F in Hx'].
        destruct (Hreg tk ltac:(left) u Ht) as (x0 & Hx0 & A1 & A2). rewrite Hx' in Hx0. injection Hx0 as <-. split; congruence. }
      split_and!.
      - intros u Hu. rewrite H3, lookup_insert_ne by lia. apply F. lia.
      - intros tk'. apply verdict_ext. intros l _. rewrite !status_default. cbn. apply made_status.
      - done.
      - intros tk' Htk' u. cbn. destruct (decide (t_id tk = t_id tk')) as [Heq|Hne].
        + assert (tk = tk') as <- by (apply Hinj; [left|by right|done]). rewrite lookup_insert. intros [= <-].
          exists x. by rewrite H3, lookup_insert.
        + rewrite lookup_insert_ne by done. intros Hu. destruct (Hreg tk' ltac:(by right) u Hu) as (x0 & Hx0 & A1 & A2).
          destruct (K _ _ Hx0) as (x1 & Hx1 & B1 & B2). exists x1. split_and!; congruence.
      - exists x. by rewrite H3, lookup_insert. }
    assert (forall y1 : inst, (forall tk', verdict y1 tk' = verdict y tk') ->
      List.filter (fun tk => bool_decide (verdict y1 tk = Some false)) es.*1 = List.filter (fun tk => bool_decide (verdict y tk = Some false)) es.*1) as Hfe.
    { intros y1 V. apply List.filter_ext. intros tk'. by rewrite V. }
    apply (enter_one E NC SO _ _ _ _ _ _ y); [done|done|by apply Hreg; left| | |done].
    - intros t s1 Hn H. destruct (Hen _ _ _ H) as (y1 & Hy1 & F1 & V1 & K1 & R1 & _).
      apply (IH s1 y1 Hy1 F1); [|intros a b ? ?; apply Hinj; by right|done|].
      { intros tk' Htk'. rewrite V1. apply Hts. by right. }
      intros s' q (l1 & Hl1) Hq K' F' FA. destruct (en_log _ _ _ _ _ _ _ H) as (l2 & Hl2 & _).
      apply (HQ s' q); [exists (l1 ++ l2); by rewrite Hl1, Hl2, app_assoc|by rewrite Hq, (en_queue _ _ _ _ _ _ _ H)|by eapply known_trans|done|].
      cbn [fmap list_fmap fst List.filter]. rewrite bool_decide_false by (by rewrite Hn).
      rewrite <- (Hfe y1 V1). exact FA.
    - intros t s1 s2 He H H2. destruct (Hen _ _ _ H) as (y1 & Hy1 & F1 & V1 & K1 & R1 & x1 & Hx1 & A1 & A2).
      destruct H2 as [B1 (x & x' & Hx & B2 & B3 & B4 & _) B5 B6 B7 B8].
      assert (known s1 s2) as K2.
      { intros u z Hz. rewrite B2. destruct (decide (t = u)) as [->|]; [|exists z; by rewrite lookup_insert_ne].
        exists x'. rewrite lookup_insert. rewrite Hx in Hz. injection Hz as <-. done. }
      apply (IH s2 y1); [by rewrite B1| | |intros a b ? ?; apply Hinj; by right| |].
      { intros u Hu. rewrite B5 in Hu. rewrite B2, lookup_insert_ne; [by apply F1|]. intros <-. by rewrite F1 in Hx. }
      { intros tk' Htk'. rewrite V1. apply Hts. by right. }
      { intros tk' Htk' u Hu. destruct (R1 tk' Htk' u Hu) as (z & Hz & C1 & C2). destruct (K2 _ _ Hz) as (z' & Hz' & D1 & D2). exists z'. split_and!; congruence. }
      intros s' q (l1 & Hl1) Hq K' F' FA. destruct (en_log _ _ _ _ _ _ _ H) as (l2 & Hl2 & _). apply (HQ s' ((S (s_wictr s1), t) :: q)).
      + eexists (l1 ++ _ :: l2). by rewrite Hl1, B8, Hl2, <- app_assoc.
      + rewrite Hq, B6, (en_queue _ _ _ _ _ _ _ H). by rewrite <- app_assoc.
      + eapply known_trans; [exact K1|]. by eapply known_trans.
      + done.
      + cbn [fmap list_fmap fst List.filter]. rewrite bool_decide_true by done. constructor.
        * cbn. destruct (K2 _ _ Hx1) as (z & Hz & C1 & C2). destruct (K' _ _ Hz) as (z' & Hz' & D1 & D2). exists z'. split_and!; congruence.
        * rewrite <- (Hfe y1 V1). exact FA.
  Qed.

  (** A property kept by the rest of a computation. *)
  Lemma gn_then {A B} (P : st -> Prop) (R : st -> st -> Prop) (m : M A) (k : A -> M B) s :
    (forall a b, P a -> R a b -> P b) -> gn (fun o => P o.2) m s -> (forall a, op R (k a)) -> gn (fun o => P o.2) (bind m k) s.
  Proof.
    intros HP Hm Hk. unfold gn, bind in *. destruct (m s) as [[a| | |] s']; try done. eapply HP; [exact Hm|]. apply Hk.
  Qed.
  Lemma gn_catch {A} (P : st -> Prop) (R : st -> st -> Prop) (m : M A) h s :
    (forall a b, P a -> R a b -> P b) -> gn (fun o => P o.2) m s -> (forall a, op R (h a)) -> gn (fun o => P o.2) (catch m h) s.
  Proof.
    intros HP Hm Hk. unfold gn, catch in *. destruct (m s) as [[a| | |] s']; try done. eapply HP; [exact Hm|]. apply Hk.
  Qed.
End Fan.

Lemma ops_and R1 R2 : ops R1 -> ops R2 -> ops (fun s s' => R1 s s' /\ R2 s s').
Proof.
  intros O1 O2. split; intros.
  - split; [apply O1|apply O2].
  - destruct H as [A1 A2], H0 as [B1 B2]. split; [by eapply (o_trans _ O1)|by eapply (o_trans _ O2)].
  - split; [by apply O1|by apply O2].
  - split; [by apply O1|by apply O2].
  - split; [by apply O1|by apply O2].
  - split; [by apply O1|by apply O2].
  - split; [by apply O1|by apply O2].
  - split; [apply O1|apply O2].
  - split; [by apply O1|by apply O2].
Qed.
Definition rest (s s' : st) : Prop := tail_grows s s' /\ logs (fun _ => True) s s'.
Lemma ops_rest : ops rest.
Proof. apply ops_and; [apply ops_tail|by apply ops_logs]. Qed.

(** The task after an evaluation. *)
Lemma evaluated_at E d uri s t x r s1 :
  running E d uri s -> built d -> built_env E -> evaluates E s t x r s1 ->
  exists y1 x1, s_insts s1 !! ti_inst x = Some y1 /\ s_tis s1 !! t = Some x1 /\ ti_inst x1 = ti_inst x /\ ti_task x1 = ti_task x /\
    ti_status x1 <> TSkipped /\ graph_ok (i_def y1) /\ ti_task x ∈ all_tasks (i_def y1).
Proof.
  intros R B BE Ev. pose proof (evaluates_reach E d uri _ _ _ _ _ R Ev) as R1.
  destruct (evaluates_quiet _ _ _ _ _ _ _ _ R Ev) as (w & q & y & y1 & x1 & Hq & Hy & Ha & _ & _ & Ho & _ & _ & _ & Hx1 & Hi1 & Ht1).
  destruct Ev as (_ & Hx & Hs & _ & w' & q' & Hq' & Hr). rewrite Hq in Hq'. injection Hq' as <- <-.
  change (set_s_log _ _) with (popped w t x q s) in Hr.
  assert (ti_is (popped w t x q s) t (ti_inst x) (ti_task x)) as Hti by (exists x; done).
  assert (unskipped t (popped w t x q s) s1) as U.
  { change s1 with (Ok r, s1).2. rewrite <- Hr. case_bool_decide.
    - by apply (rq_beh_post E t _ _ _ (unskipped_leaves E t (ti_inst x) _)).
    - by apply (rq_beh_eval E t _ _ _ (unskipped_leaves E t (ti_inst x) _)). }
  destruct (inv_task _ _ _ _ _ R1 t (ti_inst x) (ti_task x)) as (d2 & hh2 & (y2 & Hy2 & Hd2 & Hh2) & Hin & _); [exists x1; done|].
  destruct (U x Hx Hs) as (x1' & Hx1' & Hsk). rewrite Hx1 in Hx1'. injection Hx1' as <-.
  exists y2, x1. split_and!; try done.
  - eapply (inv_graph _ _ _ B BE); [exact R1|]. exists y2. done.
  - by rewrite Hd2.
Qed.

Lemma filter_app_split {A} (P : A -> bool) l1 l2 :
  (forall a, a ∈ l1 -> P a = true) -> (forall a, a ∈ l2 -> P a = false) -> List.filter P (l1 ++ l2) = l1.
Proof.
  intros H1 H2. rewrite List.filter_app.
  assert (List.filter P l1 = l1) as ->.
  { induction l1 as [|a l IH]; [done|]. cbn. rewrite H1 by left. f_equal. apply IH. intros. apply H1. by right. }
  assert (List.filter P l2 = []) as ->; [|apply app_nil_r].
  induction l2 as [|a l IH]; [done|]. cbn. rewrite H2 by left. apply IH. intros. apply H2. by right.
Qed.
(** Followed links come first. *)
Lemma fan_out_split prio ls fol : fan_out prio ls fol =
  List.filter fol (fan_out prio ls fol) ++ List.filter (fun l => negb (fol l)) ls.
Proof.
  assert (exists a, fan_out prio ls fol = a ++ List.filter (fun l => negb (fol l)) ls /\ (forall l, l ∈ a -> fol l = true)) as (a & -> & Ha).
  { unfold fan_out. destruct prio.
    - eexists. split; [rewrite !(app_assoc _ _ (List.filter (fun l => negb (fol l)) ls)); reflexivity|].
      intros l. rewrite !elem_of_app, !elem_of_list_In, !List.filter_In, !andb_true_iff. naive_solver.
    - eexists. split; [rewrite !(app_assoc _ _ (List.filter (fun l => negb (fol l)) ls)); reflexivity|].
      intros l. rewrite !elem_of_app, !elem_of_list_In, !List.filter_In, !andb_true_iff. naive_solver. }
  f_equal. symmetry. apply filter_app_split; [done|]. intros l. rewrite elem_of_list_In, List.filter_In.
  intros [_ H]. by destruct (fol l).
Qed.

Lemma find_task_id ts id tk : find_task ts id = Some tk -> t_id tk = id.
Proof.
  unfold find_task. destruct (list_find _ _) as [[k t]|] eqn:El; simpl; [|done].
  intros [= <-]. apply list_find_Some in El. by destruct El as (_ & H & _).
Qed.
Lemma target_leads d l tk : graph_ok d -> l ∈ all_links d -> link_target d l = Some tk -> leads_to d l tk /\ l ∈ t_from tk.
Proof.
  intros G Hl Ht. pose proof (link_target_in _ _ _ Ht) as Hin.
  assert (t_eh tk = l_eh l /\ t_id tk = l_to l) as [He Hid].
  { destruct G as [G1 G2]. unfold link_target, get_eh_task, get_task in Ht. destruct (l_eh l).
    - destruct (d_eh d) as [h|] eqn:Hh; [|done]. split; [|by eapply find_task_id]. apply (so_eh _ _ _ _ (G2 h eq_refl)). by eapply find_task_in.
    - split; [|by eapply find_task_id]. apply (so_eh _ _ _ _ G1). by eapply find_task_in. }
  split; [done|]. apply (graph_from _ _ _ G Hin). done.
Qed.
Lemma list_filter_fmap {A B} (f : A -> B) (P : B -> bool) (l : list A) :
  List.filter P (f <$> l) = f <$> List.filter (fun a => P (f a)) l.
Proof. induction l as [|a l IH]; [done|]. cbn. rewrite IH. by destruct (P (f a)). Qed.
Lemma list_filter_ext {A} (P Q : A -> bool) (l : list A) : (forall a, a ∈ l -> P a = Q a) -> List.filter P l = List.filter Q l.
Proof.
  intros H. induction l as [|a l IH]; [done|]. cbn. rewrite H by left. rewrite IH; [done|]. intros. apply H. by right.
Qed.

Section Order_of_successors.
  Local Set Default Proof Using "Type*".
  Context (E : env) (d : defn) (uri : string).

  Lemma successors s t x s1 y1 :
    running E d uri s -> built d -> built_env E -> cov_ok E -> links_ok E -> settings_ok E -> e_conc E = false ->
    evaluates E s t x (inr EvalDone) s1 -> s_insts s1 !! ti_inst x = Some y1 -> i_force y1 = false ->
    NoDup (t_id <$> all_tasks (i_def y1)) -> (forall tk, tk ∈ all_tasks (i_def y1) -> t_act tk <> None) ->
    let ls := t_to (ti_task x) in
    exists v ts q,
      (forall l, l ∈ ls -> l_type l = LtExpression -> EvLinkEval (ti_inst x) (l_id l) (v (l_id l)) ∈ happened s1 (do_step E s).2) /\
      Forall2 (leads_to (i_def y1)) (List.filter (followed ls v) (fan_out (e_prio E) ls (followed ls v))) ts /\
      waiting_work (do_step E s).2 =
        waiting_work s1 ++ ((fun tk => (ti_inst x, t_id tk)) <$> List.filter (decided_with y1 ls) ts) ++ q.
  Proof.
    cbv zeta. intros R B BE C L SO NC Ev Hy1 Hf ND Hact.
    pose proof (evaluates_reach E d uri _ _ _ _ _ R Ev) as R1.
    destruct (evaluated_at _ _ _ _ _ _ _ _ R B BE Ev) as (y1' & x1 & Hy1' & Hx1 & Hi1 & Ht1 & Hs1 & G & Hin).
    rewrite Hy1 in Hy1'. injection Hy1' as <-.
    pose proof (reach_fresh _ _ _ _ _ R1) as (F1 & F2 & F3 & _).
    set (i := ti_inst x) in *. set (ls := t_to (ti_task x)) in *.
    destruct (graph_out _ _ G Hin) as [N T]. fold ls in N, T.
    rewrite (evaluates_step _ _ _ _ _ _ Ev). cbn [conclude].
    set (P := fun s' => exists v ts q1 q2,
      (forall l, l ∈ ls -> l_type l = LtExpression -> EvLinkEval i (l_id l) (v (l_id l)) ∈ happened s1 s') /\
      Forall2 (leads_to (i_def y1)) (List.filter (followed ls v) (fan_out (e_prio E) ls (followed ls v))) ts /\
      s_queue s' = s_queue s1 ++ q1 ++ q2 /\ known s1 s' /\ (forall u, (s_nti s' <= u)%nat -> s_tis s' !! u = None) /\
      (exists l, s_log s' = l ++ s_log s1) /\
      Forall2 (fun p tk => exists x, s_tis s' !! p.2 = Some x /\ ti_inst x = i /\ ti_task x = tk) q1 (List.filter (decided_with y1 ls) ts)).
    assert (forall a b, P a -> rest a b -> P b) as Pmono.
    { intros a b (v & ts & q1 & q2 & H1 & H2 & H3 & H4 & H5 & (l & H6) & H7) [(T1 & (q & T2) & T3) (l' & T4 & _)].
      destruct (T3 H5) as [K F]. exists v, ts, q1, (q2 ++ q). split_and!; try done.
      - intros l0 Hl0 Hty. specialize (H1 l0 Hl0 Hty). unfold happened, trace in *. rewrite T4, rev_app_distr.
        rewrite H6 in *. rewrite rev_app_distr in *. rewrite drop_app in H1. rewrite <- app_assoc, drop_app. set_solver.
      - rewrite T2, H3. by rewrite <- !app_assoc.
      - by eapply known_trans.
      - exists (l' ++ l). by rewrite T4, H6, app_assoc.
      - eapply Forall2_impl; [exact H7|]. intros p tk (z & Hz & Z1 & Z2). destruct (K _ _ Hz) as (z' & Hz' & Z1' & Z2'). exists z'. split_and!; congruence. }
    cut (P (catch (task_done E t) (exec_recover E t) s1).2).
    { intros (v & ts & q1 & q2 & H1 & H2 & H3 & H4 & H5 & _ & H7). set (s2 := (catch _ _ _).2) in *.
      exists v, ts, (omap (name_at s2) q2). split_and!; [done|done|]. unfold waiting_work. fold (name_at s2) (name_at s1).
      change (omap (name_at s2) (s_queue s2) = omap (name_at s1) (s_queue s1) ++ ((fun tk => (i, t_id tk)) <$> List.filter (decided_with y1 ls) ts) ++ omap (name_at s2) q2).
      rewrite H3, !omap_app. f_equal; [|f_equal].
      - apply known_names; [done|]. intros p Hp.
        destruct (inv_rdy _ _ _ _ _ R1) as (_ & I & _). destruct p as [w u]. destruct (I w u Hp) as (? & ? & (z & Hz & _) & _). by exists z.
      - clear -H7. induction H7 as [|p tk q l (z & Hz & Z1 & Z2) _ IH]; [done|]. cbn [omap list_omap].
        rewrite fmap_cons, <- IH. unfold name_at at 1. rewrite Hz. cbn. by rewrite Z1, Z2. }
    apply (gn_catch P rest); [done| |intros m; apply op_recover, ops_rest].
    destruct (decide (ls = [])) as [Hnil|Hne].
    { eapply Pmono; [|apply op_task_done, ops_rest]. exists (fun _ => false), [], [], []. rewrite Hnil. split_and!; try done.
      - by intros l ?%elem_of_nil.
      - destruct (e_prio E); constructor.
      - by rewrite !app_nil_r.
      - apply known_refl.
      - by exists [].
      - constructor. }
    unfold task_done, handle_task_done. eapply gn_bti; [exact Hx1|]. cbv zeta. rewrite bool_decide_false by done. rewrite Hi1. fold i.
    eapply gn_loc; [exact Hy1|exact Hx1|]. apply loc_bind. eapply loc_mono.
    { apply loc_done; [done|done|by rewrite Hi1|by rewrite Ht1|by rewrite Ht1|by rewrite Ht1]. }
    rewrite Ht1. fold ls. intros o y2 x2 ev (-> & es & v & ev0 & -> & DP & e1 & e2 & Hev & Hev0 & _).
    apply loc_bind, loc_coverage; [done..|]. intros ls1 ev1 _ _. apply loc_ret. intros n1. cbn [app].
    set (y3 := lmap (made ls1) y2). set (x3 := set_ti_status TDone x1).
    set (s2 := put i t y3 x3 _ n1 s1).
    assert (s_insts s2 !! i = Some y3) as Hy3 by (apply lookup_insert).
    apply gn_bind, tot_ret. eapply gn_binst; [exact Hy3|].
    assert (y2 = set_i_links (i_links y2) y1) as Ey2 by apply (dp_y _ _ _ _ _ _ _ _ DP).
    assert (i_force y3 = false) as -> by (unfold y3; cbn; rewrite Ey2; done). cbn [orb].
    assert (i_tasks y3 = i_tasks y1) as Etk by (unfold y3; cbn; rewrite Ey2; done).
    apply (gn_then P rest); [done| |intros; apply (op_release _ ops_rest)].
    apply (gn_then P rest); [done| |intros; apply (op_ret _ ops_rest)].
    unfold enter_top. eapply gn_binst; [exact Hy3|]. cbn [enter_tasks]. unfold with_lock. rewrite NC.
    pose proof (dp_es _ _ _ _ _ _ _ _ DP) as Hes. rewrite fan_out_split in Hes.
    apply Forall2_app_inv_r in Hes as (esf & esr & Hesf & _ & ->).
    set (fol := followed ls v) in *. set (lf := List.filter fol (fan_out (e_prio E) ls fol)) in *.
    assert (forall l, l ∈ lf -> l ∈ ls /\ fol l = true) as Hlf.
    { intros l. unfold lf. rewrite elem_of_list_In, List.filter_In. intros [Hl Hfl]. split; [|done].
      unfold fan_out in Hl. rewrite !List.in_app_iff in Hl. apply elem_of_list_In.
      destruct (e_prio E); rewrite ?List.in_app_iff, ?List.filter_In in Hl; naive_solver. }
    assert (forall l, l ∈ ls -> l ∈ all_links (i_def y1)) as Hla by (intros l Hl; by destruct (proj1 (graph_to _ _ l G Hin) Hl)).
    assert (forall l, link_status y3 l = link_status y2 l) as Hst by (intros l; apply status_made).
    assert (forall tk, tk ∈ esf.*1 -> tk ∈ all_tasks (i_def y1) /\ exists l, l ∈ t_from tk /\ l ∈ ls /\ fol l = true) as Hesf1.
    { intros tk (e & -> & He)%elem_of_list_fmap. apply elem_of_list_lookup in He as [k Hk].
      destruct (Forall2_lookup_l _ _ _ _ _ Hesf Hk) as (l & Hl & Hlt). apply elem_of_list_lookup_2, Hlf in Hl as [Hl1 Hl2].
      destruct (target_leads _ _ _ G (Hla l Hl1) Hlt) as [(H1 & _) H2]. split; [done|]. by exists l. }
    assert (forall l, l ∈ ls -> link_status y3 l = if fol l then LTrue else LFalse) as Hdec.
    { intros l Hl. rewrite Hst, status_default, (dp_in _ _ _ _ _ _ _ _ DP l Hl). done. }
    assert (forall tk, tk ∈ esf.*1 -> bool_decide (verdict y3 tk = Some false) = decided_with y1 ls tk) as Hvd.
    { intros tk Htk. destruct (Hesf1 tk Htk) as (Ha & l0 & Hl0 & Hl0' & Hf0). apply eq_true_iff_eq. rewrite bool_decide_eq_true, verdict_run. unfold decided_with. rewrite forallb_forall.
      assert (forall l, l ∈ t_from tk -> LFalse <= link_status y3 l <->
        existsb (fun l' => (l_id l' =? l_id l)%nat) ls || match i_links y1 !! l_id l with Some z => LFalse <=? z | None => false end = true) as Hl.
      { intros l Hl. apply (graph_from _ _ _ G Ha) in Hl as [Hl _]. rewrite orb_true_iff, existsb_exists. destruct (decide (l_id l ∈ l_id <$> ls)) as [(l' & He & Hl')%elem_of_list_fmap|Hk].
        - rewrite <- (graph_link_inj _ _ _ G Hl (Hla l' Hl') He) in Hl'. rewrite (Hdec l Hl'). split; [|by destruct (fol l)].
          intros _. left. exists l. split; [by apply elem_of_list_In|]. apply Nat.eqb_refl.
        - rewrite Hst, status_default, (dp_out _ _ _ _ _ _ _ _ DP _ Hk). split.
          + destruct (i_links y1 !! l_id l) as [z|]; cbn; [intros ?; right; by apply Z.leb_le|unfold LUnset, LFalse; lia].
          + intros [(l' & Hl'%elem_of_list_In & He%Nat.eqb_eq)|Hz]; [destruct Hk; rewrite <- He; by apply elem_of_list_fmap_1|].
            destruct (i_links y1 !! l_id l) as [z|]; [|done]. by apply Z.leb_le in Hz. }
      split.
      - intros [H _] l Hin'%elem_of_list_In. apply Hl; [done|]. by apply H.
      - intros H. split; [intros l Hin'; apply Hl; [done|]; by apply H, elem_of_list_In|]. right. exists l0. by rewrite Hdec, Hf0. }
    apply (enter_followed E NC SO _ i esf esr s2 y3).
    - done.
    - intros u Hu. cbn in *. rewrite lookup_insert_ne; [by apply F1|]. intros <-. by rewrite (F1 t Hu) in Hx1.
    - intros tk Htk. destruct (Hesf1 tk Htk) as (Ha & l0 & Hl0 & Hl0' & Hf0). split; [by apply Hact|].
      rewrite verdict_skip. intros [_ H]. destruct (H l0 Hl0) as [_ H']. apply H'. by rewrite Hdec, Hf0.
    - intros a b Ha Hb Hid. apply Hesf1 in Ha as [Ha _], Hb as [Hb _]. apply elem_of_list_lookup in Ha as [k Hk], Hb as [k' Hk'].
      assert (k = k') as <-; [|congruence]. eapply NoDup_lookup; [exact ND|by rewrite list_lookup_fmap, Hk|by rewrite list_lookup_fmap, Hk', Hid].
    - intros tk Htk u Hu. rewrite Etk in Hu. destruct (F3 i (t_id tk) u) as (tk' & (z & Hz & Z1 & Z2) & Hid); [exists y1; done|].
      assert (tk' = tk) as ->.
      { destruct (inv_task _ _ _ _ _ R1 u i tk') as (d2 & h2 & (y' & Hy' & Hd' & _) & Hin' & _); [exists z; done|].
        fold i in Hy1. rewrite Hy1 in Hy'. injection Hy' as <-. rewrite <- Hd' in Hin'. apply Hesf1 in Htk as [Htk _].
        apply elem_of_list_lookup in Htk as [k Hk], Hin' as [k' Hk'].
        assert (k = k') as <-; [|congruence]. eapply NoDup_lookup; [exact ND|by rewrite list_lookup_fmap, Hk|rewrite list_lookup_fmap, Hk'; cbn; f_equal; congruence]. }
      cbn. destruct (decide (t = u)) as [->|].
      + exists x3. rewrite lookup_insert. rewrite Hx1 in Hz. injection Hz as <-. done.
      + exists z. rewrite lookup_insert_ne by done. done.
    - intros s3 q (l1 & Hl1) Hq K F Fa.
      assert (known s1 s2) as K1.
      { intros u z Hz. cbn. destruct (decide (t = u)) as [->|]; [|exists z; by rewrite lookup_insert_ne].
        exists x3. rewrite lookup_insert. rewrite Hx1 in Hz. injection Hz as <-. done. }
      eapply Pmono; [|apply op_enter_list; [apply ops_rest|]; intros; apply op_done; [apply ops_rest|]; intros; apply op_enter_tasks, ops_rest].
      exists v, esf.*1, q, []. split_and!.
      + intros l Hl Hty. pose proof (dp_val _ _ _ _ _ _ _ _ DP l Hl Hty) as Hv. unfold happened, trace. rewrite Hl1.
        change (s_log s2) with ((ev1 ++ ev) ++ s_log s1). rewrite app_assoc, rev_app_distr, drop_app. apply in_rev_elem.
        rewrite Hev. rewrite Hev0 in Hv. set_solver.
      + change (Forall2 (leads_to (i_def y1)) lf esf.*1). clearbody lf. clear -Hesf Hlf Hla G. revert Hlf. induction Hesf as [|e l es0 ls0 Ht _ IH]; intros Hlf; cbn [fmap list_fmap]; constructor.
        * destruct (Hlf l) as [Hl _]; [left|]. by destruct (target_leads _ _ _ G (Hla l Hl) Ht).
        * apply IH. intros l' Hl'. apply Hlf. by right.
      + by rewrite Hq, app_nil_r.
      + by eapply known_trans.
      + done.
      + exists (l1 ++ ev1 ++ ev). rewrite Hl1. change (s_log s2) with ((ev1 ++ ev) ++ s_log s1). by rewrite !app_assoc.
      + erewrite <- list_filter_ext; [exact Fa|]. exact Hvd.
  Qed.
End Order_of_successors.
