(** Restarting a loaded instance (proofs; no Go counterpart). *)
From Verif Require Export SerProofs.
Local Open Scope Z_scope.

Lemma numbered_lookup l n : numbered l !! n = (fun p => (n, p)) <$> l !! n.
Proof. unfold numbered. by rewrite list_lookup_imap. Qed.
Lemma numbered_length l : length (numbered l) = length l.
Proof. apply imap_length. Qed.

(** What the state [s0] after reopening has of the task table [T] and the items [q]. *)
Record opened (l : loaded) (s0 : st) (y : inst) : Prop := {
  op_insts : s_insts s0 = {[ 0%nat := y ]};
  op_inst : i_uri y = lf_uri (ld_main l) /\ i_links y = lf_links (ld_main l) /\ i_attrs y = lf_attrs (ld_main l) /\
            i_handling y = false /\ i_rdata y = None;
  op_task : forall id z, lf_tasks (ld_main l) !! id = Some z ->
    exists t x, i_tasks y !! id = Some t /\ (t < length (map_to_list (lf_tasks (ld_main l))))%nat /\
      s_tis s0 !! t = Some x /\ ti_status x = z /\ t_id (ti_task x) = id /\ ti_inst x = 0%nat;
  op_only : forall id t, i_tasks y !! id = Some t -> is_Some (lf_tasks (ld_main l) !! id);
  op_inj : forall id id' t, i_tasks y !! id = Some t -> i_tasks y !! id' = Some t -> id = id';
  op_queue : s_queue s0 = (fun w => (w.1.1.1, item_ti (numbered (map_to_list (lf_tasks (ld_main l)))) w)) <$> ld_queue l;
  op_item : forall w id, is_Some (lf_tasks (ld_main l) !! id) ->
    i_tasks y !! id = Some (item_ti (numbered (map_to_list (lf_tasks (ld_main l)))) (w, id, 0%nat, true))
}.

Lemma reopened_ok d l :
  (forall id z, lf_tasks (ld_main l) !! id = Some z -> exists x, init_task d id z = Some x /\ t_id (ti_task x) = id) ->
  exists s0 y, reopened d l = Some s0 /\ opened l s0 y.
Proof.
  intros Hok. set (T := lf_tasks (ld_main l)) in *. set (L := map_to_list T).
  assert (forall n id z, numbered L !! n = Some (n, (id, z)) <-> L !! n = Some (id, z)) as HL.
  { intros n id z. rewrite numbered_lookup. destruct (L !! n); simpl; split; congruence. }
  assert (forall n p, numbered L !! n = Some p -> p.1 = n) as HLn.
  { intros n p. rewrite numbered_lookup. destruct (L !! n); simpl; [|done]. by intros [= <-]. }
  assert (exists tis, mapM (fun p => (fun x => (p.1, x)) <$> init_task d p.2.1 p.2.2) (numbered L) = Some tis) as [tis Htis].
  { apply mapM_is_Some. apply Forall_forall. intros p Hp. apply elem_of_list_lookup in Hp as [n Hn].
    assert (L !! n = Some p.2) as Hl by (rewrite numbered_lookup in Hn; destruct (L !! n); simpl in Hn; [by injection Hn as <-|done]).
    apply elem_of_list_lookup_2 in Hl. destruct p as [m [id z]]. simpl in Hl. apply elem_of_map_to_list in Hl.
    destruct (Hok id z Hl) as (x & Hx & _). simpl. rewrite Hx. by eexists. }
  unfold reopened. fold T L. rewrite Htis. cbn [mbind option_bind]. eexists _, _. split; [reflexivity|].
  pose proof (proj1 (mapM_Some _ _ _) Htis) as HF.
  assert (forall n id z, L !! n = Some (id, z) -> exists x, init_task d id z = Some x /\ (list_to_map tis : gmap nat tinst) !! n = Some x) as Hti.
  { intros n id z Hl. apply HL in Hl. destruct (Forall2_lookup_l _ _ _ _ _ HF Hl) as ([n1 x] & Hn & Hf). simpl in Hf.
    destruct (init_task d id z) as [x1|]; [|done]. injection Hf as <- <-. exists x1. split; [done|].
    apply elem_of_list_to_map; [|by eapply elem_of_list_lookup_2].
    assert (tis.*1 = (numbered L).*1) as ->.
    { clear -HF. induction HF as [|p q a b Hpq Hj IH]; [done|]. rewrite !fmap_cons, IH. f_equal.
      destruct (init_task d p.2.1 p.2.2); simpl in Hpq; [|done]. by injection Hpq as <-. }
    apply NoDup_fmap_fst; [|apply NoDup_alt].
    - intros a b c Ha Hb. apply elem_of_list_lookup in Ha as [i Hi], Hb as [j Hj].
      pose proof (HLn i _ Hi) as E1. pose proof (HLn j _ Hj) as E2. simpl in E1, E2. subst. rewrite Hi in Hj. by injection Hj.
    - intros i j p Hi Hj. rewrite <- (HLn i p Hi). by rewrite <- (HLn j p Hj). }
  assert (NoDup ((fun p : nat * (string * Z) => (p.2.1, p.1)) <$> numbered L).*1) as Hnd.
  { rewrite <- list_fmap_compose.
    assert ((fst ∘ (fun p : nat * (string * Z) => (p.2.1, p.1))) <$> numbered L = L.*1) as ->; [|apply NoDup_fst_map_to_list].
    apply list_eq. intros n. rewrite !list_lookup_fmap, numbered_lookup. by destruct (L !! n). }
  assert (forall n id z, L !! n = Some (id, z) -> (list_to_map ((fun p : nat * (string * Z) => (p.2.1, p.1)) <$> numbered L) : gmap string nat) !! id = Some n) as Htab.
  { intros n id z Hl. apply elem_of_list_to_map; [done|]. apply HL in Hl. apply elem_of_list_lookup_2 in Hl.
    by apply (elem_of_list_fmap_1 (fun p : nat * (string * Z) => (p.2.1, p.1))) in Hl. }
  assert (forall n id, (list_to_map ((fun p : nat * (string * Z) => (p.2.1, p.1)) <$> numbered L) : gmap string nat) !! id = Some n ->
    exists z, L !! n = Some (id, z)) as Hback.
  { intros n id H. apply elem_of_list_to_map_2 in H. apply elem_of_list_fmap in H as ([m [id' z]] & [= -> ->] & Hin).
    apply elem_of_list_lookup in Hin as [k Hk]. pose proof (HLn k _ Hk) as Hkm. simpl in Hkm. subst m. exists z. by apply HL. }
  split; simpl.
  - done.
  - done.
  - intros id z Hz. assert ((id, z) ∈ L) as Hin by by apply elem_of_map_to_list. apply elem_of_list_lookup in Hin as [n Hn].
    destruct (Hti n id z Hn) as (x & Hx & Hl). exists n, x. split_and!; [by eapply Htab|by eapply lookup_lt_Some|done|..].
    + unfold init_task in Hx. destruct (match get_task d id with Some tk => Some tk | None => get_eh_task d id end) as [tk|]; [|done].
      destruct (t_act tk); [|done]. by injection Hx as <-.
    + destruct (Hok id z Hz) as (x' & Hx' & Hid). rewrite Hx in Hx'. by injection Hx' as <-.
    + unfold init_task in Hx. destruct (match get_task d id with Some tk => Some tk | None => get_eh_task d id end) as [tk|]; [|done].
      destruct (t_act tk); [|done]. by injection Hx as <-.
  - intros id t Ht. apply Hback in Ht as [z Hz]. apply elem_of_list_lookup_2, elem_of_map_to_list in Hz. by eexists.
  - intros id id' t H1 H2. apply Hback in H1 as [z Hz], H2 as [z' Hz']. rewrite Hz in Hz'. by injection Hz'.
  - done.
  - intros w id [z Hz]. assert ((id, z) ∈ L) as Hin by by apply elem_of_map_to_list. apply elem_of_list_lookup in Hin as [n Hn].
    apply HL in Hn. fold T L. destruct (list_find _ (numbered L)) as [[k p]|] eqn:Ef.
    + simpl. apply list_find_Some in Ef as (Hk & <- & _). destruct p as [k' [id' z']]. pose proof (HLn k _ Hk) as Hkk. simpl in Hkk. subst k'.
      simpl. eapply Htab. by apply HL.
    + apply list_find_None in Ef. rewrite Forall_forall in Ef. apply elem_of_list_lookup_2 in Hn. by apply Ef in Hn.
Qed.

Lemma activate_eq E s y : s_insts s !! 0%nat = Some y ->
  exists s' y', set_flow_status E 0 FActive s = (Ok tt, s') /\ s_insts s' !! 0%nat = Some y' /\
    s_tis s' = s_tis s /\ s_queue s' = s_queue s /\ s_wictr s' = s_wictr s /\
    i_status y' = FActive /\ i_uri y' = i_uri y /\ i_tasks y' = i_tasks y /\ i_links y' = i_links y /\
    i_attrs y' = i_attrs y /\ i_handling y' = i_handling y.
Proof.
  intros Hy. unfold set_flow_status, bind, get_inst, get, upd_inst, log_ev, modify, ret, panic, bind. rewrite Hy.
  set (s1 := set_s_log _ _). set (y1 := set_i_status FActive y).
  assert (s_insts s1 !! 0%nat = Some y1) as Hy1 by (cbn [s1 s_insts set_s_log set_s_insts]; rewrite lookup_alter, Hy; done).
  assert (s_tis s1 = s_tis s /\ s_queue s1 = s_queue s /\ s_wictr s1 = s_wictr s) as (H1 & H2 & H3) by done. clearbody s1.
  unfold post_flow_event, bind, get_inst, get, get_return_data, log_ev, upd_inst, modify, ret, panic, bind.
  destruct (e_listener E); [|exists s1, y1; by rewrite H1, H2, H3]. rewrite Hy1.
  case_bool_decide; [eexists _, y1; split; [reflexivity|]; cbn [s_insts s_tis s_queue s_wictr set_s_log]; by rewrite H1, H2, H3|].
  unfold get_inst, bind, get, ret. rewrite Hy1.
  destruct (i_rdata y1); [eexists _, y1; split; [reflexivity|]; cbn [s_insts s_tis s_queue s_wictr set_s_log]; by rewrite H1, H2, H3|].
  destruct (d_md _) as [[? [mdo|]]|];
    [|eexists _, y1; split; [reflexivity|]; cbn [s_insts s_tis s_queue s_wictr set_s_log]; by rewrite H1, H2, H3..].
  eexists _, _. split_and!; [reflexivity|cbn [s_insts set_s_insts set_s_log]; rewrite lookup_alter, Hy1; reflexivity|done..].
Qed.

Lemma requeue_eq nil s w t q x : s_queue s = (w, t) :: q -> t <> nil -> s_tis s !! t = Some x ->
  exists s', requeue nil s = (Ok tt, s') /\ s_queue s' = q ++ [(w, t)] /\ s_insts s' = s_insts s /\
    s_tis s' = <[t := set_ti_status TReady x]> (s_tis s) /\ s_wictr s' = s_wictr s.
Proof.
  intros Hq Ht Hx. unfold requeue, bind, get, modify. rewrite Hq. rewrite decide_False by done.
  unfold set_task_status, bind, get_ti, get, upd_ti, log_ev, modify, ret, bind. cbn [s_tis set_s_queue]. rewrite Hx.
  eexists. split; [reflexivity|]. cbn. split_and!; [done|done| |done].
  apply map_eq. intros k. destruct (decide (k = t)) as [->|Hn].
  - by rewrite lookup_alter, lookup_insert, Hx.
  - by rewrite lookup_alter_ne, lookup_insert_ne by done.
Qed.
Lemma requeue_nil nil s : s_queue s = [] -> requeue nil s = (Ok tt, s).
Proof. intros Hq. unfold requeue, bind, get. by rewrite Hq. Qed.

(** The items of a queue. *)
Definition items_of (m : gmap nat tinst) (q : list (nat * nat)) : list (nat * string * nat) :=
  omap (fun w => (fun x => (w.1, t_id (ti_task x), ti_inst x)) <$> m !! w.2) q.
Lemma items_of_upd m t x z q : m !! t = Some x -> items_of (<[t := set_ti_status z x]> m) q = items_of m q.
Proof.
  intros Hx. unfold items_of. induction q as [|[w t'] q IH]; [done|]. cbn [omap list_omap]. rewrite IH. simpl.
  destruct (decide (t' = t)) as [->|Hn]; [by rewrite lookup_insert, Hx|by rewrite lookup_insert_ne].
Qed.

(** Doing [requeue] twice. *)
Lemma requeue_two nil s :
  (forall w t, (w, t) ∈ s_queue s -> t <> nil /\ is_Some (s_tis s !! t)) ->
  exists s', (requeue nil ;; requeue nil) s = (Ok tt, s') /\ s_queue s' = drop 2 (s_queue s) ++ take 2 (s_queue s) /\
    s_insts s' = s_insts s /\ s_wictr s' = s_wictr s /\
    (forall q, items_of (s_tis s') q = items_of (s_tis s) q) /\
    (forall t x, s_tis s !! t = Some x -> exists x', s_tis s' !! t = Some x' /\ ti_task x' = ti_task x /\ ti_inst x' = ti_inst x /\
       (t ∈ (take 2 (s_queue s)).*2 -> ti_status x' = TReady) /\ (t ∉ (take 2 (s_queue s)).*2 -> ti_status x' = ti_status x)).
Proof.
  intros Hall. destruct (s_queue s) as [|[w1 t1] q1] eqn:Hq.
  { exists s. unfold bind. rewrite !requeue_nil by done. split_and!; [done|by rewrite Hq|done..|].
    intros t x Hx. exists x. split_and!; [done..| |done]. intros Hin. by apply elem_of_nil in Hin. }
  destruct (Hall w1 t1) as [Hn1 [x1 Hx1]]; [by left|].
  destruct (requeue_eq nil s w1 t1 q1 x1 Hq Hn1 Hx1) as (s1 & Hr1 & Hq1 & Hi1 & Ht1 & Hw1).
  assert (exists w2 t2 q2, q1 ++ [(w1, t1)] = (w2, t2) :: q2 /\ (w2, t2) ∈ (w1, t1) :: q1) as (w2 & t2 & q2 & Hq2 & Hin2).
  { destruct q1 as [|[w2 t2] q1]; [exists w1, t1, []; split; [done|by left]|]. exists w2, t2, (q1 ++ [(w1, t1)]). split; [done|]. right. by left. }
  destruct (Hall w2 t2 Hin2) as [Hn2 [x2 Hx2]].
  assert (exists x2', s_tis s1 !! t2 = Some x2' /\ ti_task x2' = ti_task x2 /\ ti_inst x2' = ti_inst x2) as (x2' & Hx2' & _).
  { rewrite Ht1. destruct (decide (t2 = t1)) as [->|Hne]; [rewrite lookup_insert; eexists; split; [done|]; rewrite Hx1 in Hx2; by injection Hx2 as <-|].
    rewrite lookup_insert_ne by done. by exists x2. }
  rewrite Hq2 in Hq1.
  destruct (requeue_eq nil s1 w2 t2 q2 x2' Hq1 Hn2 Hx2') as (s2 & Hr2 & Hq2' & Hi2 & Ht2 & Hw2).
  exists s2. split_and!.
  - unfold bind. by rewrite Hr1.
  - rewrite Hq2'. destruct q1 as [|[w3 t3] q1]; simpl in Hq2; injection Hq2 as <- <- <-; simpl; [done|]. rewrite drop_0, take_0. by rewrite <- app_assoc.
  - by rewrite Hi2.
  - by rewrite Hw2.
  - intros q. rewrite Ht2, items_of_upd by done. rewrite Ht1. by rewrite items_of_upd.
  - assert (forall t, t ∈ (take 2 ((w1, t1) :: q1)).*2 <-> t = t1 \/ t = t2) as Htk.
    { intros t. destruct q1 as [|[w3 t3] q1]; simpl in Hq2; injection Hq2 as <- <- <-; simpl; rewrite ?take_0; simpl; rewrite ?elem_of_cons, ?elem_of_nil; tauto. }
    intros t x Hx. rewrite Ht2, Ht1. destruct (decide (t = t2)) as [->|Hne2].
    + rewrite lookup_insert. eexists. split; [done|]. rewrite Ht1 in Hx2'. 
      destruct (decide (t2 = t1)) as [->|Hne].
      * rewrite lookup_insert in Hx2'. injection Hx2' as <-. rewrite Hx1 in Hx. injection Hx as <-. split_and!; [done|done|done|].
        intros Hni. exfalso. apply Hni, Htk. by left.
      * rewrite lookup_insert_ne in Hx2' by done. rewrite Hx in Hx2'. injection Hx2' as <-. split_and!; [done|done|done|].
        intros Hni. exfalso. apply Hni, Htk. by right.
    + rewrite lookup_insert_ne by done. destruct (decide (t = t1)) as [->|Hne1].
      * rewrite lookup_insert. rewrite Hx1 in Hx. injection Hx as <-. eexists. split_and!; [done|done|done|done|].
        intros Hni. exfalso. apply Hni, Htk. by left.
      * rewrite lookup_insert_ne by done. exists x. split_and!; [done|done|done| |done]. intros Hin. apply Htk in Hin. naive_solver.
Qed.

Lemma restart_ok E d init l :
  (forall id z, lf_tasks (ld_main l) !! id = Some z -> exists x, init_task d id z = Some x /\ t_id (ti_task x) = id) ->
  (forall w b, (w, b) ∈ ld_queue l -> b = true /\ w.2 = 0%nat /\ is_Some (lf_tasks (ld_main l) !! w.1.2)) ->
  exists s' y', restart E (DOk d) init l = (Ok None, Some s') /\ s_insts s' !! 0%nat = Some y' /\
    i_status y' = FActive /\ i_uri y' = lf_uri (ld_main l) /\ i_links y' = lf_links (ld_main l) /\
    i_attrs y' = lf_attrs (ld_main l) /\ i_handling y' = false /\ s_wictr s' = ld_wictr l /\
    items s' = (let q := fst <$> ld_queue l in if (0 <? init) then drop 2 q ++ take 2 q else q) /\
    (forall id, is_Some (i_tasks y' !! id) <-> is_Some (lf_tasks (ld_main l) !! id)) /\
    (forall id z, lf_tasks (ld_main l) !! id = Some z -> exists t x, i_tasks y' !! id = Some t /\ s_tis s' !! t = Some x /\
      ((0 < init /\ id ∈ (take 2 (ld_queue l)).*1.*1.*2) -> ti_status x = TReady) /\
      (~ (0 < init /\ id ∈ (take 2 (ld_queue l)).*1.*1.*2) -> ti_status x = z)).
Proof.
  intros Hok Hq. destruct (reopened_ok d l Hok) as (s0 & y & Hre & O).
  pose proof (op_insts _ _ _ O) as Hi. destruct (op_inst _ _ _ O) as (Hu & Hl & Ha & Hh & _).
  set (NL := numbered (map_to_list (lf_tasks (ld_main l)))) in *.
  unfold restart. rewrite Hre. fold NL.
  set (s1 := set_s_log (EvFlowCreated :: s_log s0) s0).
  assert (s_insts s1 !! 0%nat = Some y) as Hy1 by (cbn [s1 s_insts set_s_log]; rewrite Hi; apply lookup_singleton).
  destruct (activate_eq E s1 y Hy1) as (s2 & y2 & Hact & Hy2 & Ht2 & Hq2 & Hw2 & F1 & F2 & F3 & F4 & F5 & F6).
  assert (s_tis s2 = s_tis s0) as Ht0 by (by rewrite Ht2). assert (s_queue s2 = s_queue s0) as Hq0 by (by rewrite Hq2).
  assert (s_wictr s2 = ld_wictr l) as Hw0.
  { rewrite Hw2. cbn [s1 s_wictr set_s_log]. unfold reopened in Hre. destruct (mapM _ _); [|done]. cbn in Hre. by injection Hre as <-. }
  clear Ht2 Hq2 Hw2.
  assert (forall w b, (w, b) ∈ ld_queue l -> exists t x, item_ti NL (w, b) = t /\ i_tasks y !! w.1.2 = Some t /\
      (t < length NL)%nat /\ s_tis s0 !! t = Some x /\ t_id (ti_task x) = w.1.2 /\ ti_inst x = 0%nat) as Hitem.
  { intros w b Hin. destruct (Hq w b Hin) as (-> & Hw & [z Hz]). destruct w as [[w id] i]. simpl in *. subst i.
    destruct (op_task _ _ _ O id z Hz) as (t & x & A1 & A2 & A3 & A4 & A5 & A6).
    pose proof (op_item _ _ _ O w id (ex_intro _ z Hz)) as Hit. fold NL in Hit. rewrite A1 in Hit. injection Hit as Hit.
    exists t, x. split_and!; [done|done| |done|done|done]. unfold NL. by rewrite numbered_length. }
  assert (items_of (s_tis s0) (s_queue s0) = fst <$> ld_queue l) as Hit0.
  { rewrite (op_queue _ _ _ O). fold NL. clear -Hitem Hq. induction (ld_queue l) as [|[w b] q IH]; [done|].
    destruct (Hitem w b) as (t & x & E1 & _ & _ & E2 & E3 & E4); [by left|]. 
    rewrite !fmap_cons. rewrite E1. unfold items_of. cbn [omap list_omap fst snd]. rewrite E2. cbn [fmap option_fmap option_map].
    f_equal.
    - rewrite E3, E4. destruct (Hq w b) as (_ & <- & _); [by left|]. by destruct w as [[]].
    - apply IH; intros w' b' Hin; [apply Hq|apply Hitem]; by right. }
  assert (forall w t, (w, t) ∈ s_queue s2 -> t <> length NL /\ is_Some (s_tis s2 !! t)) as Hall.
  { intros w t Hin. rewrite Hq0, (op_queue _ _ _ O) in Hin. apply elem_of_list_fmap in Hin as ([w' b] & Heq & Hin). apply (f_equal snd) in Heq. cbn [snd] in Heq.
    destruct (Hitem w' b Hin) as (t' & x & E1 & _ & E0 & E2 & _). fold NL in Heq. rewrite E1 in Heq. subst t'. rewrite Ht0, E2. split; [lia|by eexists]. }
  assert (forall s3, items_of (s_tis s3) (s_queue s3) = items s3) as Hio by done.
  assert ((forall id, is_Some (i_tasks y2 !! id) <-> is_Some (lf_tasks (ld_main l) !! id))) as Hdom.
  { intros id. rewrite F3. split.
    - intros [t Ht]. by eapply op_only.
    - intros [z Hz]. destruct (op_task _ _ _ O id z Hz) as (t & x & A1 & _). by eexists. }
  assert (forall m : M unit, (log_ev EvFlowCreated ;; set_flow_status E 0 FActive ;; m) s0 = m s2) as Hrun.
  { intros m. unfold bind. unfold log_ev at 1. unfold modify. fold s1. by rewrite Hact. }
  rewrite Hrun. destruct (0 <? init) eqn:Hinit.
  - apply Z.ltb_lt in Hinit. destruct (requeue_two (length NL) s2 Hall) as (s3 & Hr & Hq3 & Hi3 & Hw3 & Hit3 & Ht3).
    rewrite Hr. exists s3, y2. split_and!; [done|by rewrite Hi3|done|congruence|congruence|congruence|congruence|congruence| |done|].
    + rewrite <- Hio, Hit3, Ht0, Hq3, Hq0. unfold items_of. rewrite omap_app. fold (items_of (s_tis s0)).
      cbv zeta. rewrite <- Hit0.
      assert (forall n q, (forall w t, (w, t) ∈ q -> is_Some (s_tis s0 !! t)) ->
        items_of (s_tis s0) (drop n q) = drop n (items_of (s_tis s0) q) /\ items_of (s_tis s0) (take n q) = take n (items_of (s_tis s0) q)) as Hdt.
      { induction n as [|n IH]; intros q Hs; [by rewrite !drop_0, !take_0|]. destruct q as [|[w t] q]; [done|].
        destruct (Hs w t) as [x Hx]; [by left|]. unfold items_of. simpl. rewrite Hx. simpl. destruct (IH q) as [I1 I2].
        - intros w' t' Hin. eapply Hs. by right.
        - split; [exact I1|]. f_equal. exact I2. }
      assert (forall w t, (w, t) ∈ s_queue s0 -> is_Some (s_tis s0 !! t)) as Hs.
      { intros w t Hin. rewrite <- Ht0. eapply Hall. by rewrite Hq0. }
      destruct (Hdt 2%nat (s_queue s0) Hs) as [<- <-]. done.
    + intros id z Hz. destruct (op_task _ _ _ O id z Hz) as (t & x & A1 & A2 & A3 & A4 & A5 & A6).
      destruct (Ht3 t x) as (x3 & Hx3 & _ & _ & B1 & B2); [by rewrite Ht0|]. exists t, x3. split_and!; [by rewrite F3|done|..].
      * intros [_ Hid]. apply B1. rewrite Hq0, (op_queue _ _ _ O). rewrite <- fmap_take, <- list_fmap_compose.
        rewrite <- !list_fmap_compose in Hid. apply elem_of_list_fmap in Hid as ([w b] & -> & Hin). simpl in A1, Hz.
        assert ((w, b) ∈ ld_queue l) as Hin' by (apply elem_of_list_lookup in Hin as [k Hk]; apply lookup_take_Some in Hk as [Hk _]; by eapply elem_of_list_lookup_2).
        destruct (Hitem w b Hin') as (t' & x' & E1 & E2 & _). simpl in E2. rewrite A1 in E2. injection E2 as <-.
        apply elem_of_list_fmap. exists (w, b). split; [|done]. cbn [compose fst snd]. by fold NL.
      * intros Hn. rewrite <- A4. apply B2. intros Hin. apply Hn. split; [done|]. rewrite Hq0, (op_queue _ _ _ O) in Hin. rewrite <- fmap_take, <- list_fmap_compose in Hin.
        apply elem_of_list_fmap in Hin as ([w b] & Het & Hin). cbn [compose fst snd] in Het. fold NL in Het.
        assert ((w, b) ∈ ld_queue l) as Hin' by (apply elem_of_list_lookup in Hin as [k Hk]; apply lookup_take_Some in Hk as [Hk _]; by eapply elem_of_list_lookup_2).
        destruct (Hitem w b Hin') as (t' & x' & E1 & E2 & _). rewrite E1 in Het. subst t'.
        rewrite (op_inj _ _ _ O _ _ _ A1 E2). rewrite <- !list_fmap_compose. apply elem_of_list_fmap. by exists (w, b).
  - apply Z.ltb_ge in Hinit. exists s2, y2. split_and!; [done|done|done|congruence|congruence|congruence|congruence|done| |done|].
    + by rewrite <- Hio, Ht0, Hq0.
    + intros id z Hz. destruct (op_task _ _ _ O id z Hz) as (t & x & A1 & A2 & A3 & A4 & A5 & A6). exists t, x. rewrite F3, Ht0. split_and!; [done|done| |done].
      intros [? _]. lia.
Qed.

Lemma find_task_some ts tk : tk ∈ ts -> exists tk', find_task ts (t_id tk) = Some tk' /\ tk' ∈ ts /\ t_id tk' = t_id tk.
Proof.
  intros Hin. unfold find_task. destruct (list_find (fun t => t_id t = t_id tk) ts) as [[n tk']|] eqn:Ef.
  - apply list_find_Some in Ef as (Hn & He & _). exists tk'. split_and!; [done|by eapply elem_of_list_lookup_2|done].
  - apply list_find_None in Ef. rewrite Forall_forall in Ef. by apply Ef in Hin.
Qed.

Section Restarts.
  Local Set Default Proof Using "Type*".
  Context (E : env) (d : defn) (uri : string).

  Lemma init_task_ok c s y id t x z :
    reach E d uri c s -> (forall tk, tk ∈ all_tasks d -> t_act tk <> None) ->
    s_insts s !! 0%nat = Some y -> i_tasks y !! id = Some t -> s_tis s !! t = Some x ->
    exists x', init_task d id z = Some x' /\ t_id (ti_task x') = id.
  Proof.
    intros R Hact Hy Ht Hx. destruct (registered_is s 0 id t) as (tk & Htk & Hid); [by eapply reach_fresh|by exists y|].
    destruct (inv_task E d uri c s R _ _ _ Htk) as (d' & h & (y1 & Hy1 & Hd & _) & Hin & _).
    destruct (inv_main E d uri c s R) as (y2 & Hy2 & Hd2 & _). rewrite Hy1 in Hy2. injection Hy2 as <-. rewrite <- Hd, Hd2 in Hin.
    assert (exists tk', (match get_task d id with Some tk => Some tk | None => get_eh_task d id end) = Some tk' /\ tk' ∈ all_tasks d /\ t_id tk' = id) as (tk' & Hf & Hin' & Hid').
    { unfold get_task, get_eh_task. destruct (find_task (d_tasks d) id) as [tk1|] eqn:E1.
      - unfold find_task in E1. destruct (list_find (fun t0 => t_id t0 = id) (d_tasks d)) as [[n tk']|] eqn:Ef; [|done]. injection E1 as <-.
        apply list_find_Some in Ef as (Hn & He & _). exists tk'. split_and!; [done| |done]. apply elem_of_app. left. by eapply elem_of_list_lookup_2.
      - apply elem_of_app in Hin as [Hin|Hin].
        + destruct (find_task_some _ _ Hin) as (tk' & Hf & _). rewrite Hid in Hf. congruence.
        + destruct (d_eh d) as [h'|] eqn:Eh; [|by apply elem_of_nil in Hin]. destruct (find_task_some _ _ Hin) as (tk' & Hf & Hin' & Hid'). rewrite Hid in *.
          exists tk'. split_and!; [done| |done]. apply elem_of_app. right. by rewrite Eh. }
    unfold init_task. rewrite Hf. destruct (t_act tk') eqn:Ea; [|by apply Hact in Ea]. by eexists.
  Qed.

  Lemma restarts js s c id v v' init :
    reach E d uri c s -> (forall tk, tk ∈ all_tasks d -> t_act tk <> None) ->
    saves id s v -> json_saved js v = Some v' ->
    (forall w, w ∈ items s -> w.2 = 0%nat /\ exists y, s_insts s !! 0%nat = Some y /\ is_Some (i_tasks y !! w.1.2)) ->
    exists l s' y y', unmarshal v' = Ok l /\ restart E (DOk d) init l = (Ok None, Some s') /\
      s_insts s !! 0%nat = Some y /\ s_insts s' !! 0%nat = Some y' /\
      items s' = (if (0 <? init) then drop 2 (items s) ++ take 2 (items s) else items s) /\
      i_status y' = FActive /\ i_uri y' = i_uri y /\ i_links y' = i_links y /\ (forall k, i_attrs y' !! k = i_attrs y !! k ≫= js) /\
      (forall n, is_Some (i_tasks y' !! n) <-> is_Some (i_tasks y !! n)) /\
      (forall n t x, i_tasks y !! n = Some t -> s_tis s !! t = Some x ->
        exists t' x', i_tasks y' !! n = Some t' /\ s_tis s' !! t' = Some x' /\
          ((0 < init /\ n ∈ (take 2 (items s)).*1.*2) -> ti_status x' = TReady) /\
          (~ (0 < init /\ n ∈ (take 2 (items s)).*1.*2) -> ti_status x' = ti_status x)).
  Proof.
    intros R Hact Hs Hj Hit.
    destruct (reloaded E d uri js s c id v v' R Hs Hj) as (l & Hu & _ & (y & Hy & K1 & K2 & K3 & K4 & K5) & _ & _ & Hq & Hb & _).
    { intros w Hw. left. by apply Hit. }
    assert (forall n t, i_tasks y !! n = Some t -> is_Some (s_tis s !! t)) as Htis.
    { intros n t Ht. destruct (registered_is s 0 n t) as (tk & (x & Hx & _) & _); [by eapply reach_fresh|by exists y|]. by eexists. }
    destruct (restart_ok E d init l) as (s' & y' & Hr & Hy' & F1 & F2 & F3 & F4 & F5 & F6 & F7 & F8 & F9).
    { intros n z Hz. rewrite K4 in Hz. apply bind_Some in Hz as (t & Ht & Hz). destruct (s_tis s !! t) as [x|] eqn:Hx; [|done].
      by eapply init_task_ok. }
    { intros w b Hin. assert (w ∈ items s) as Hw. { rewrite <- Hq. by apply (elem_of_list_fmap_1 fst) in Hin. }
      destruct (Hit w Hw) as (Hw0 & y1 & Hy1 & [t Ht]). rewrite Hy in Hy1. injection Hy1 as <-. destruct (Htis _ _ Ht) as [x Hx].
      split_and!; [|done|].
      - apply (Hb w b Hin). rewrite Hw0. exists y. split; [done|]. rewrite Ht. simpl. by eexists.
      - rewrite K4, Ht. simpl. rewrite Hx. by eexists. }
    exists l, s', y, y'. cbv zeta in F7. rewrite Hq in F7.
    split_and!; try done; [by rewrite F2|by rewrite F3|by intros k; rewrite F4|..].
    - intros n. rewrite F8, K4. split.
      + intros [z Hz]. apply bind_Some in Hz as (t & Ht & _). by eexists.
      + intros [t Ht]. rewrite Ht. simpl. destruct (Htis _ _ Ht) as [x ->]. by eexists.
    - intros n t x Ht Hx. destruct (F9 n (ti_status x)) as (t' & x' & A1 & A2 & A3 & A4); [rewrite K4, Ht; simpl; by rewrite Hx|].
      assert ((take 2 (ld_queue l)).*1.*1.*2 = (take 2 (items s)).*1.*2) as Heq by (by rewrite <- Hq, <- !fmap_take).
      rewrite Heq in A3, A4. by exists t', x'.
  Qed.
End Restarts.
