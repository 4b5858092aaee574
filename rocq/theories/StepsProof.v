(** Every engine function is a sequence of atomic steps (proofs; no Go counterpart). *)
From Verif Require Export Steps.
Local Open Scope Z_scope.

(** Heap addresses handed out next are unused; the task table of a flow instance holds its own
    task instances under their ids; the status of a task instance has been published. *)
Definition fresh (s : st) : Prop :=
  (forall t, (s_nti s <= t)%nat -> s_tis s !! t = None) /\
  (forall i, (s_sfctr s < i)%nat -> s_insts s !! i = None) /\
  (forall i id t, registered s i id t -> exists tk, ti_is s t i tk /\ t_id tk = id) /\
  (forall t x, s_tis s !! t = Some x -> ti_status x <> TNotStarted ->
     logged s (EvTaskUpd (ti_inst x) (t_id (ti_task x)) (ti_status x))) /\
  (forall i y l z, s_insts s !! i = Some y -> i_links y !! l = Some z -> z <> LUnset ->
     (z = LFalse \/ z = LTrue \/ z = LSkipped) /\ logged s (EvLinkSet i l z)) /\
  (forall t x, s_tis s !! t = Some x ->
     (ti_status x = TReady -> rdyT s t) /\ (ti_status x = TSkipped -> rdy s t)).

(** Facts that are never lost. *)
Definition grows (s s' : st) : Prop :=
  (forall t i tk, ti_is s t i tk -> ti_is s' t i tk) /\
  (forall i d h, inst_is s i d h -> inst_is s' i d h) /\
  (exists l, s_log s' = l ++ s_log s).

Lemma grows_refl s : grows s s.
Proof. split_and!; eauto. by exists []. Qed.
Lemma grows_trans s1 s2 s3 : grows s1 s2 -> grows s2 s3 -> grows s1 s3.
Proof.
  intros (A1 & B1 & l1 & C1) (A2 & B2 & l2 & C2). split_and!; eauto.
  exists (l2 ++ l1). by rewrite C2, C1, app_assoc.
Qed.

Lemma logged_grows s s' e : grows s s' -> logged s e -> logged s' e.
Proof. intros (_ & _ & l & Hl) H. unfold logged in *. rewrite Hl. set_solver. Qed.
Lemma finished_grows s s' i id : grows s s' -> finished s i id -> finished s' i id.
Proof. intros G (z & ? & ?). exists z. eauto using logged_grows. Qed.
Lemma readied_grows s s' i id : grows s s' -> readied s i id -> readied s' i id.
Proof. apply logged_grows. Qed.
Lemma act_inst_grows s s' c i : grows s s' -> act_inst s c i -> act_inst s' c i.
Proof.
  intros G [(t & tk & -> & H)|(d & H & H')]; [left|right]; pose proof G as (A & B & _); eauto 6 using logged_grows.
Qed.
Lemma ti_is_grows s s' t i tk : grows s s' -> ti_is s t i tk -> ti_is s' t i tk.
Proof. intros (A & _ & _). eauto. Qed.
Lemma inst_is_grows s s' i d h : grows s s' -> inst_is s i d h -> inst_is s' i d h.
Proof. intros (_ & A & _). eauto. Qed.

(** Elementary changes. *)
Lemma grows_log e s : grows s (p_log e s).
Proof. split_and!; eauto. by exists [e]. Qed.
Lemma grows_inst i f s :
  (forall y, i_def (f y) = i_def y /\ i_host (f y) = i_host y) -> grows s (p_inst i f s).
Proof.
  intros Hf. split_and!; eauto; [|by exists []].
  intros j d h (y & Hy & <- & <-). unfold inst_is, p_inst. simpl.
  destruct (decide (i = j)) as [->|].
  - rewrite lookup_alter, Hy. simpl. destruct (Hf y). eauto.
  - rewrite lookup_alter_ne by done. eauto.
Qed.
Lemma grows_ti t f s :
  (forall x, ti_inst (f x) = ti_inst x /\ ti_task (f x) = ti_task x) -> grows s (p_ti t f s).
Proof.
  intros Hf. split_and!; eauto; [|by exists []].
  intros j i tk (y & Hy & <- & <-). unfold ti_is, p_ti. simpl.
  destruct (decide (t = j)) as [->|].
  - rewrite lookup_alter, Hy. simpl. destruct (Hf y). eauto.
  - rewrite lookup_alter_ne by done. eauto.
Qed.
Lemma grows_same s s' :
  s_tis s' = s_tis s -> s_insts s' = s_insts s -> s_log s' = s_log s -> grows s s'.
Proof.
  intros A B C. unfold grows, ti_is, inst_is. rewrite A, B, C. split_and!; eauto. by exists [].
Qed.

Lemma decided_grows s s' i l : grows s s' -> decided s i l -> decided s' i l.
Proof. intros G (z & ? & ?). exists z. eauto using logged_grows. Qed.
Lemma rdy_grows s s' t : grows s s' -> rdy s t -> rdy s' t.
Proof.
  intros G (i & tk & H & Hl). exists i, tk. split; [by eapply ti_is_grows|].
  intros l Hin. eapply decided_grows; eauto.
Qed.
Lemma rdyT_grows s s' t : grows s s' -> rdyT s t -> rdyT s' t.
Proof.
  intros G (i & tk & H & Hl & Ht). exists i, tk. split_and!; [by eapply ti_is_grows| |].
  - intros l Hin. eapply decided_grows; eauto.
  - destruct Ht as [?|(l & ? & ?)]; [by left|right]. eauto using logged_grows.
Qed.
Lemma rdyT_rdy s t : rdyT s t -> rdy s t.
Proof. intros (i & tk & H & Hl & _). exists i, tk. eauto. Qed.
Lemma closing_grows s s' c t i id : grows s s' -> closing s c t i id -> closing s' c t i id.
Proof.
  intros G [F H]. split; [by eapply finished_grows|].
  destruct H; [by left|right]. by eapply rdy_grows.
Qed.

(** What the scan over the incoming links finds. *)
Lemma scan_links_spec stat ls sk b :
  scan_links stat ls sk = Some b ->
  (forall l, l ∈ ls -> LFalse <= stat l) /\
  (b = false -> sk = false \/ exists l, l ∈ ls /\ stat l = LTrue) /\
  (b = true -> sk = true /\ forall l, l ∈ ls -> stat l <> LTrue).
Proof.
  revert sk. induction ls as [|l ls IH]; intros sk H; simpl in H.
  - injection H as <-. split_and!; [set_solver|auto|set_solver].
  - destruct (Z.ltb_spec (stat l) LFalse) as [|Hl]; [done|].
    apply IH in H as (H1 & H2 & H3). split_and!.
    + intros l' [->|Hin]%elem_of_cons; [done|auto].
    + intros Hb. destruct (Z.eqb_spec (stat l) LTrue) as [Ht|Ht].
      * right. exists l. set_solver.
      * destruct (H2 Hb) as [?|(l' & ? & ?)]; [by left|right]. exists l'. set_solver.
    + intros Hb. destruct (H3 Hb) as [H4 H5]. destruct (Z.eqb_spec (stat l) LTrue) as [Ht|Ht]; [done|].
      split; [done|]. intros l' [->|Hin]%elem_of_cons; [done|auto].
Qed.

Lemma fresh_log e s : fresh s -> fresh (p_log e s).
Proof.
  intros (A & B & C & D & L & R). pose proof (grows_log e s) as G. split_and!; [done|done|done|..].
  - intros t x Hx Hz. eapply logged_grows; [done|]. by eapply D.
  - intros i y l z Hy Hl Hz. destruct (L i y l z Hy Hl Hz). split; [done|]. by eapply logged_grows.
  - intros t x Hx. destruct (R t x Hx). split; eauto using rdy_grows, rdyT_grows.
Qed.
Lemma fresh_inst i f s :
  (forall y, i_def (f y) = i_def y /\ i_host (f y) = i_host y) ->
  (forall y id t, i_tasks (f y) !! id = Some t -> i_tasks y !! id = Some t) ->
  (forall y l z, i_links (f y) !! l = Some z -> z <> LUnset -> i_links y !! l = Some z \/
     (z = LFalse \/ z = LTrue \/ z = LSkipped) /\ logged s (EvLinkSet i l z)) ->
  fresh s -> fresh (p_inst i f s).
Proof.
  intros Hg Hf Hk (A & B & C & D & L & R). pose proof (grows_inst i f s Hg) as G.
  split_and!; [done| | |done| |].
  - simpl. intros j Hj. rewrite lookup_alter_None. eauto.
  - intros j id t (y & Hy & Ht). apply C. unfold p_inst in Hy. simpl in Hy.
    rewrite lookup_alter_Some in Hy. destruct Hy as [(-> & z & Hz & ->)|[_ Hy]].
    + exists z. eauto.
    + exists y. eauto.
  - intros j y l z Hy Hl Hz. unfold p_inst in Hy. simpl in Hy.
    rewrite lookup_alter_Some in Hy. destruct Hy as [(-> & y' & Hy & ->)|[_ Hy]].
    + destruct (Hk y' l z Hl Hz) as [?|?]; eauto.
    + eauto.
  - intros t x Hx. destruct (R t x Hx). split; eauto using rdy_grows, rdyT_grows.
Qed.
Lemma fresh_ti t f s :
  ti_data f -> fresh s -> fresh (p_ti t f s).
Proof.
  intros Hf (A & B & C & D & L & R).
  assert (G : grows s (p_ti t f s)).
  { apply grows_ti. intros x. destruct (Hf x) as (?&?&?). done. }
  split_and!; [|done| | |done|].
  - simpl. intros j Hj. rewrite lookup_alter_None. eauto.
  - intros j id t' Hr. destruct (C j id t' Hr) as (tk & Htk & <-). exists tk. split; [|done].
    by eapply ti_is_grows.
  - intros t' x. unfold p_ti. simpl. rewrite lookup_alter_Some.
    intros [(-> & x' & Hx' & ->)|[_ Hx]]; [|by eapply D].
    destruct (Hf x') as (->&->&->). by eapply D.
  - intros t' x. unfold p_ti. simpl. rewrite lookup_alter_Some.
    intros [(-> & x' & Hx' & ->)|[_ Hx]].
    + destruct (Hf x') as (_&_&->). destruct (R t' x' Hx'). split; eauto using rdy_grows, rdyT_grows.
    + destruct (R t' x Hx). split; eauto using rdy_grows, rdyT_grows.
Qed.
Lemma fresh_tstat t x z s :
  s_tis s !! t = Some x -> (z = TReady -> rdyT s t) -> (z = TSkipped -> rdy s t) ->
  fresh s -> fresh (p_tstat t x z s).
Proof.
  intros Hx H1 H2 (A & B & C & D & L & R).
  assert (G : grows s (p_tstat t x z s)).
  { eapply grows_trans; [apply (grows_ti t (set_ti_status z))|apply grows_log]. done. }
  split_and!; [|done| | | |].
  - simpl. intros j Hj. rewrite lookup_alter_None. eauto.
  - intros j id t' Hr. destruct (C j id t' Hr) as (tk & Htk & <-). exists tk. split; [|done].
    by eapply ti_is_grows.
  - intros t' x' Hx' Hz. unfold p_tstat, p_ti in Hx'. simpl in Hx'. rewrite lookup_alter_Some in Hx'.
    destruct Hx' as [(-> & x1 & Hx1 & ->)|[_ Hx']].
    + rewrite Hx in Hx1. injection Hx1 as <-. apply elem_of_list_here.
    + apply elem_of_list_further. by eapply D.
  - intros i y l z' Hy Hl Hz. destruct (L i y l z' Hy Hl Hz). split; [done|]. by eapply logged_grows.
  - intros t' x' Hx'. unfold p_tstat, p_ti in Hx'. simpl in Hx'. rewrite lookup_alter_Some in Hx'.
    destruct Hx' as [(-> & x1 & Hx1 & ->)|[_ Hx']].
    + simpl. split; eauto using rdy_grows, rdyT_grows.
    + destruct (R t' x' Hx'). split; eauto using rdy_grows, rdyT_grows.
Qed.

(** A task whose incoming links are all decided. *)
Lemma scan_rdy s t x y b :
  fresh s -> s_tis s !! t = Some x -> s_insts s !! ti_inst x = Some y ->
  scan_links (link_status y) (t_from (ti_task x))
    (match t_from (ti_task x) with [] => false | _ => true end) = Some b ->
  rdy s t /\ (b = false -> rdyT s t).
Proof.
  intros (_ & _ & _ & _ & L & _) Hx Hy Hs. apply scan_links_spec in Hs as (H1 & H2 & _).
  assert (Hd : forall l, l ∈ t_from (ti_task x) ->
    exists z, i_links y !! l_id l = Some z /\ link_status y l = z /\ z <> LUnset).
  { intros l Hl. specialize (H1 l Hl). unfold link_status in *.
    destruct (i_links y !! l_id l) as [z|] eqn:Ez; [|done]. exists z. split_and!; [done|done|].
    intros ->. done. }
  assert (Hti : ti_is s t (ti_inst x) (ti_task x)) by (exists x; done).
  assert (Hdec : forall l, l ∈ t_from (ti_task x) -> decided s (ti_inst x) l).
  { intros l Hl. destruct (Hd l Hl) as (z & Hz & _ & Hn). exists z. by eapply L. }
  split.
  - exists (ti_inst x), (ti_task x). done.
  - intros Hb. exists (ti_inst x), (ti_task x). split_and!; [done|done|].
    destruct (t_from (ti_task x)) as [|l0 ls0] eqn:Ef; [by left|right].
    destruct (H2 Hb) as [?|(l & Hl & Ht)]; [done|].
    destruct (Hd l Hl) as (z & Hz & Hs & Hn). exists l. split; [done|].
    rewrite Hs in Ht. subst z. by eapply L.
Qed.

Lemma astep_grows E c s s' : astep E c s s' -> grows s s'.
Proof.
  destruct 1; unfold p_set, p_fstat, p_tstat, p_tnew, p_tdel, p_lnew, p_lset, p_ldel, p_sched, p_sub in *;
    try case_match;
    repeat match goal with |- grows ?a (p_log ?e ?b) => apply (grows_trans _ b); [|apply grows_log] end;
    try apply grows_refl;
    try (apply grows_same; done);
    try (apply grows_inst; intros ?; done);
    try (apply grows_ti; intros ?; done).
  - apply grows_ti. intros x. destruct (H x) as (?&?&?). done.
  - apply grows_inst. intros x. destruct (H x) as (?&?&?&?&?). done.
  - (* subflow *)
    split_and!; eauto; [|by exists []].
    intros j d' h (y & Hy & <- & <-). unfold inst_is. simpl.
    rewrite lookup_insert_ne by congruence. eauto.
  - (* new task instance *)
    eapply grows_trans; [|by apply grows_inst].
    split_and!; eauto; [|by exists []].
    intros j i' tk' (z & Hz & <- & <-). unfold ti_is. simpl.
    rewrite lookup_insert_ne by congruence. eauto.
Qed.

Lemma astep_fresh E c s s' : astep E c s s' -> fresh s -> fresh s'.
Proof.
  destruct 1; intros HF; try done;
    unfold p_set, p_fstat, p_tnew, p_tdel, p_lnew, p_ldel, p_sched, p_sub in *;
    repeat (lazymatch goal with |- fresh (p_log _ _) => idtac end; apply fresh_log); try done;
    try (lazymatch goal with |- fresh (p_inst _ _ s) => idtac end; apply fresh_inst; [done|done|by left|done]);
    try (apply fresh_ti; [by intros|done]).
  - apply fresh_inst; [| | |done].
    + intros x. destruct (H x) as (?&?&?&?&?). done.
    + intros x id t. destruct (H x) as (?&?&?&?&?&->&?). done.
    + intros x id t. destruct (H x) as (?&?&?&?&?&?&->&?). by left.
  - (* subflow *)
    destruct HF as (A & B & C & D & L & R).
    match goal with |- fresh ?s' => assert (G : grows s s') end.
    { split_and!; eauto; [|by exists []].
      intros j d' h (y & Hy & <- & <-). unfold inst_is. simpl.
      rewrite lookup_insert_ne by congruence. eauto. }
    split_and!; [done| | |done| |]; simpl.
    + intros i Hi. rewrite lookup_insert_ne by lia. apply B. lia.
    + intros i id t' (y & Hy & Ht'). simpl in Hy.
      destruct (decide (i = S (s_sfctr s))) as [->|].
      * rewrite lookup_insert in Hy. injection Hy as <-. simpl in Ht'. done.
      * rewrite lookup_insert_ne in Hy by done. apply (C i id t'). by exists y.
    + intros i y l z Hy Hl Hz. destruct (decide (i = S (s_sfctr s))) as [->|].
      * rewrite lookup_insert in Hy. injection Hy as <-. done.
      * rewrite lookup_insert_ne in Hy by done. eauto.
    + intros t' x' Hx. destruct (R t' x' Hx). split; eauto using rdy_grows, rdyT_grows.
  - (* new task instance *)
    destruct HF as (A & B & C & D & L & R).
    match goal with |- fresh ?s' => assert (G : grows s s') end.
    { eapply grows_trans; [|by apply grows_inst].
      split_and!; eauto; [|by exists []].
      intros j i' tk' (z & Hz & <- & <-). unfold ti_is. simpl.
      rewrite lookup_insert_ne by congruence. eauto. }
    split_and!; simpl.
    + intros t Ht. rewrite lookup_insert_ne by lia. apply A. lia.
    + intros j Hj. rewrite lookup_alter_None. auto.
    + intros j id t (y' & Hy' & Ht). unfold p_inst in Hy'. simpl in Hy'.
      rewrite lookup_alter_Some in Hy'. destruct Hy' as [(-> & z & Hz & ->)|[Hj Hy']].
      * simpl in Ht. destruct (decide (id = t_id tk)) as [->|Hid].
        -- rewrite lookup_insert in Ht. injection Ht as <-. exists tk. split; [|done].
           eexists. simpl. rewrite lookup_insert. done.
        -- rewrite lookup_insert_ne in Ht by done.
           destruct (C j id t) as (tk' & Hti & ?); [by exists z|].
           exists tk'. split; [|done]. by eapply ti_is_grows.
      * destruct (C j id t) as (tk' & Hti & ?); [by exists y'|].
        exists tk'. split; [|done]. by eapply ti_is_grows.
    + intros t x. destruct (decide (t = s_nti s)) as [->|].
      * rewrite lookup_insert. intros [= <-]. done.
      * rewrite lookup_insert_ne by done. apply D.
    + intros j y' l z Hy' Hl Hz. unfold p_inst in Hy'. simpl in Hy'.
      rewrite lookup_alter_Some in Hy'. destruct Hy' as [(-> & y1 & Hy1 & ->)|[Hj Hy']]; eauto.
    + intros t x. destruct (decide (t = s_nti s)) as [->|].
      * rewrite lookup_insert. intros [= <-]. done.
      * rewrite lookup_insert_ne by done. intros Hx. destruct (R t x Hx).
        split; eauto using rdy_grows, rdyT_grows.
  - by apply fresh_tstat.
  - apply fresh_tstat; [done| |done|done]. intros _.
    destruct (scan_rdy s t x y false HF) as [_ Hr]; [done..|]. by apply Hr.
  - apply fresh_tstat; [done|done| |done]. intros _.
    by destruct (scan_rdy s t x y true HF) as [Hr _].
  - apply fresh_tstat; [done|done| |done]. intros _. destruct HF as (_&_&_&_&_&R). by eapply R.
  - apply fresh_tstat; [done|naive_solver|naive_solver|done].
  - apply fresh_inst; [done|done| |done]. intros y' l' z Hl Hz. left. simpl in Hl.
    rewrite lookup_insert_Some in Hl. naive_solver.
  - unfold p_lset. change (fresh (p_inst (ti_inst x) (fun x1 => set_i_links (<[l_id l:=z]> (i_links x1)) x1)
                             (p_log (EvLinkSet (ti_inst x) (l_id l) z) s))).
    apply fresh_inst; [done|done| |by apply fresh_log]. intros y' l' z' Hl Hz. simpl in Hl.
    rewrite lookup_insert_Some in Hl. destruct Hl as [[<- <-]|[_ Hl]]; [right|by left].
    split; [done|]. apply elem_of_list_here.
  - apply fresh_inst; [done| |by left|done]. intros y' id t' Hd. simpl in Hd.
    rewrite lookup_delete_Some in Hd. naive_solver.
  - apply fresh_inst; [done|done| |done]. intros y' l' z Hl Hz. left. simpl in Hl.
    rewrite lookup_delete_Some in Hl. naive_solver.
Qed.

Lemma asteps_grows E c s s' : asteps E c s s' -> grows s s'.
Proof. induction 1; eauto using grows_refl, grows_trans, astep_grows. Qed.
Lemma lately_logged s e : lately s e -> logged s e.
Proof. intros (l1 & l2 & H & _). unfold logged. rewrite H. set_solver. Qed.
Lemma lately_same s s' e : s_log s' = s_log s -> lately s e -> lately s' e.
Proof. intros H (l1 & l2 & Hl & Hn). exists l1, l2. by rewrite H. Qed.
Lemma lately_here s e : lately (p_log e s) e.
Proof. exists [], (s_log s). split; [done|]. intros w i id H. by apply elem_of_nil in H. Qed.
Lemma lately_log s e e' : (forall w i id, e' <> EvQDel w i id) -> lately s e -> lately (p_log e' s) e.
Proof.
  intros He (l1 & l2 & Hl & Hn). exists (e' :: l1), l2. cbn. rewrite Hl. split; [done|].
  intros w i id [<-|H]%elem_of_cons; [by eapply He|by eapply Hn].
Qed.
Lemma astep_lately E c s s' e : astep E c s s' -> lately s e -> lately s' e.
Proof.
  intros St H. destruct St; try (by eapply lately_same; [|exact H]; done);
    try (by apply lately_log; [|eapply lately_same; [|exact H]; done]).
  apply lately_log; [|done]. intros ??? ->. done.
Qed.
Lemma asteps_lately E c s s' e : asteps E c s s' -> lately s e -> lately s' e.
Proof. intros St. induction St; eauto using astep_lately. Qed.
Lemma asteps_fresh E c s s' : asteps E c s s' -> fresh s -> fresh s'.
Proof. induction 1; eauto using astep_fresh. Qed.

(** ** Weakest preconditions *)

(** [m] run from [s] makes atomic steps only; if it returns [a], then [Q a] holds. *)
Definition wp {A} (E : env) (c : option nat) (m : M A) (s : st) (Q : A -> st -> Prop) : Prop :=
  fresh s ->
  asteps E c s (m s).2 /\ (forall a, (m s).1 = Ok a -> Q a (m s).2).

Section Wp.
  Context (E : env) (c : option nat).
  Implicit Types s : st.

  Lemma wp_ret {A} (a : A) s (Q : A -> st -> Prop) : Q a s -> wp E c (ret a) s Q.
  Proof. intros H _. split; [constructor|]. intros a' [= <-]. done. Qed.
  Lemma wp_panic {A} msg s (Q : A -> st -> Prop) : wp E c (panic msg) s Q.
  Proof. intros _. split; [constructor|]. done. Qed.
  Lemma wp_fuel {A} s (Q : A -> st -> Prop) : wp E c out_of_fuel s Q.
  Proof. intros _. split; [constructor|]. done. Qed.
  Lemma wp_blocked {A} s (Q : A -> st -> Prop) : wp E c (fun s => (Blocked, s)) s Q.
  Proof. intros _. split; [constructor|]. done. Qed.
  Lemma wp_get s (Q : st -> st -> Prop) : Q s s -> wp E c get s Q.
  Proof. intros H _. split; [constructor|]. intros a [= <-]. done. Qed.

  Lemma wp_weaken {A} (m : M A) s (Q Q' : A -> st -> Prop) :
    wp E c m s Q -> (forall a s', asteps E c s s' -> Q a s' -> Q' a s') -> wp E c m s Q'.
  Proof. intros H HQ F. destruct (H F) as [St R]. split; [done|]. eauto. Qed.

  Lemma wp_bind {A B} (m : M A) (k : A -> M B) s (Q : B -> st -> Prop) (R : A -> st -> Prop) :
    wp E c m s R ->
    (forall a s', asteps E c s s' -> grows s s' -> R a s' -> wp E c (k a) s' Q) ->
    wp E c (bind m k) s Q.
  Proof.
    intros Hm Hk F. destruct (Hm F) as [St HR]. unfold bind.
    destruct (m s) as [o s'] eqn:Em. simpl in *.
    destruct o as [a| | |]; simpl; try (split; [done|intros ? [=]]).
    destruct (Hk a s' St) as [St2 HQ]; eauto using asteps_grows, asteps_fresh.
    split; [|done]. etrans; done.
  Qed.

  Lemma wp_catch {A} (m : M A) h s (Q : A -> st -> Prop) :
    wp E c m s Q ->
    (forall e s', asteps E c s s' -> grows s s' -> wp E c (h e) s' Q) ->
    wp E c (catch m h) s Q.
  Proof.
    intros Hm Hh F. destruct (Hm F) as [St HQ]. unfold catch.
    destruct (m s) as [o s'] eqn:Em. simpl in *.
    destruct o as [a|e| |]; simpl; try (split; [done|done]).
    destruct (Hh e s' St) as [St2 HQ2]; eauto using asteps_grows, asteps_fresh.
    split; [|done]. etrans; done.
  Qed.

  Lemma wp_get_ti t s (Q : tinst -> st -> Prop) :
    (forall x, s_tis s !! t = Some x -> Q x s) -> wp E c (get_ti t) s Q.
  Proof.
    intros H _. unfold get_ti, bind, get. simpl.
    destruct (s_tis s !! t) eqn:Et; simpl; split; try constructor; try done.
    intros a [= <-]. eauto.
  Qed.
  Lemma wp_get_inst i s (Q : inst -> st -> Prop) :
    (forall y, s_insts s !! i = Some y -> Q y s) -> wp E c (get_inst i) s Q.
  Proof.
    intros H _. unfold get_inst, bind, get. simpl.
    destruct (s_insts s !! i) eqn:Et; simpl; split; try constructor; try done.
    intros a [= <-]. eauto.
  Qed.

  (** One atomic step, as a computation. *)
  Lemma wp_step (f : st -> st) s (Q : unit -> st -> Prop) :
    (fresh s -> astep E c s (f s)) -> Q tt (f s) -> wp E c (modify f) s Q.
  Proof.
    intros H HQ F. simpl. split; [apply rtc_once; auto|]. intros [] _. done.
  Qed.

  (** A computation that makes exactly one atomic step. *)
  Lemma wp_exact {A} (m : M A) a s s' (Q : A -> st -> Prop) :
    m s = (Ok a, s') -> (fresh s -> astep E c s s') -> Q a s' -> wp E c m s Q.
  Proof.
    intros Hm H HQ F. rewrite Hm. simpl. split; [apply rtc_once; auto|]. intros a' [= <-]. done.
  Qed.

  Lemma wp_finally {A} (m : M A) (f : M unit) s (Q R : A -> st -> Prop) :
    wp E c m s R ->
    (forall s', asteps E c s s' -> grows s s' -> wp E c f s' (fun _ _ => True)) ->
    (forall a s' s'', asteps E c s s' -> R a s' -> asteps E c s' s'' -> grows s' s'' -> Q a s'') ->
    wp E c (finally m f) s Q.
  Proof.
    intros Hm Hf HQ. unfold finally.
    eapply (wp_bind _ _ _ _ (fun r s' => match r with inr a => R a s' | inl _ => True end)).
    - apply wp_catch.
      + eapply wp_bind; [exact Hm|]. intros. by apply wp_ret.
      + intros. by apply wp_ret.
    - intros r s1 St1 G1 HR.
      intros F. destruct (Hf s1 St1 G1 F) as [St2 _]. unfold bind.
      destruct (f s1) as [o s2] eqn:Ef. simpl in *.
      destruct o as [[]| | |]; simpl; try (split; [done|done]).
      destruct r as [e|a]; simpl; split; try done.
      intros a' [= <-]. eapply HQ; eauto using asteps_grows.
  Qed.

  Lemma wp_iterM {A} (f : A -> M unit) (I : st -> Prop) l s (Q : unit -> st -> Prop) :
    I s ->
    (forall x s', x ∈ l -> asteps E c s s' -> grows s s' -> I s' -> wp E c (f x) s' (fun _ s'' => I s'')) ->
    (forall s', asteps E c s s' -> I s' -> Q tt s') ->
    wp E c (iterM f l) s Q.
  Proof.
    revert s. induction l as [|x l IH]; intros s HI Hf HQ; simpl.
    - apply wp_ret. apply HQ; [constructor|done].
    - eapply wp_bind.
      + apply Hf; [set_solver|constructor|apply grows_refl|done].
      + intros [] s' St G HI'. apply IH; [done| |].
        * intros y s'' Hy St' G' HI''. apply Hf; [set_solver|by etrans|eauto using grows_trans|done].
        * intros s'' St' HI''. apply HQ; [by etrans|done].
  Qed.
End Wp.
