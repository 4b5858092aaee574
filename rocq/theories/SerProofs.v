(** Saving, loading and restarting (proofs; no Go counterpart). *)
From Verif Require Export SpecRec Life.
Local Open Scope Z_scope.

(** ** Building maps from lists *)
Section Maps.
  Context {K V : Type} `{Countable K}.
  Implicit Types (l : list (K * V)) (m : gmap K V).

  Lemma build_from l m k v : NoDup l.*1 -> (forall k', k' ∈ l.*1 -> m !! k' = None) ->
    foldl (fun m p => <[p.1 := p.2]> m) m l !! k = Some v <-> (k, v) ∈ l \/ m !! k = Some v.
  Proof.
    revert m. induction l as [|[k1 v1] l IH]; intros m Hnd Hm.
    - simpl. split; [by right|]. intros [Hin|]; [by apply elem_of_nil in Hin|done].
    - cbn [foldl]. rewrite fmap_cons in Hnd. apply NoDup_cons in Hnd as [Hn Hnd].
      rewrite IH; [|done|].
      + simpl in *. split.
        * intros [Hin|Hl]; [left; by right|]. apply lookup_insert_Some in Hl as [[<- <-]|[Hne Hl]]; [left; by left|by right].
        * intros [Hin|Hl].
          { apply elem_of_cons in Hin as [[= -> ->]|Hin]; [right; apply lookup_insert|by left]. }
          right. rewrite lookup_insert_ne; [done|]. intros ->. rewrite Hm in Hl; [done|]. apply elem_of_cons. by left.
      + intros k' Hk'. rewrite lookup_insert_ne; [|intros <-; done]. apply Hm. apply elem_of_cons. by right.
  Qed.
  Lemma build_lookup l k v : NoDup l.*1 -> build_map l !! k = Some v <-> (k, v) ∈ l.
  Proof.
    intros Hnd. unfold build_map. rewrite build_from; [|done|intros; apply lookup_empty]. rewrite lookup_empty. naive_solver.
  Qed.
  Lemma build_perm l m : l ≡ₚ map_to_list m -> build_map l = m.
  Proof.
    intros Hp. assert (NoDup l.*1) as Hnd by (rewrite Hp; apply NoDup_fst_map_to_list).
    apply map_eq. intros k. apply option_eq. intros v. rewrite build_lookup, Hp; [|done]. apply elem_of_map_to_list.
  Qed.
End Maps.

(** Attributes that have been written and read. *)
Lemma json_build js l l' m k :
  l ≡ₚ map_to_list m -> json_attrs js l = Some l' -> build_map l' !! k = (m !! k) ≫= js.
Proof.
  intros Hp Hj. assert (NoDup l.*1) as Hnd by (rewrite Hp; apply NoDup_fst_map_to_list).
  apply mapM_Some in Hj.
  assert (l'.*1 = l.*1) as Hk.
  { clear Hp Hnd. induction Hj as [|p q l l' Hpq Hj IH]; [done|]. rewrite !fmap_cons, IH. f_equal.
    destruct (js p.2); simpl in Hpq; [|done]. by injection Hpq as <-. }
  apply option_eq. intros v. rewrite build_lookup; [|by rewrite Hk]. split.
  - intros Hin. apply elem_of_list_lookup in Hin as [n Hn]. destruct (Forall2_lookup_r _ _ _ _ _ Hj Hn) as ([k0 v0] & Hl & Hf). simpl in Hf.
    destruct (js v0) as [v1|] eqn:Ev; [|done]. injection Hf as <- <-.
    assert (m !! k0 = Some v0) as ->; [|done]. apply elem_of_map_to_list. rewrite <- Hp. by eapply elem_of_list_lookup_2.
  - intros Hb. apply bind_Some in Hb as (v0 & Hm & Hv).
    apply elem_of_map_to_list in Hm. rewrite <- Hp in Hm. apply elem_of_list_lookup in Hm as [n Hn].
    destruct (Forall2_lookup_l _ _ _ _ _ Hj Hn) as ([k1 v1] & Hl & Hf). simpl in Hf. rewrite Hv in Hf. injection Hf as <- <-.
    by eapply elem_of_list_lookup_2.
Qed.

Lemma flow_roundtrip js s i y f g :
  s_insts s !! i = Some y -> same_flow (marshal_flow s y) f -> json_flow js f = Some g -> flow_kept js s i (load_flow g).
Proof.
  intros Hy (Hu & Hs & Ha & Ht & Hl) Hj. unfold json_flow in Hj. destruct (json_attrs js (sf_attrs f)) as [a|] eqn:Ea; [|done]. injection Hj as <-.
  exists y. unfold load_flow, marshal_flow in *. simpl in *. split_and!; [done|done|done|..].
  - intros k. by eapply json_build.
  - intros n. rewrite (build_perm _ _ (symmetry Ht)). apply lookup_omap.
  - by apply build_perm.
Qed.

(** ** Invariants *)
Section Inv.
  Local Set Default Proof Using "Type*".
  Context (E : env) (d : defn) (uri : string).

  Lemma inv_live_subs c s : reach E d uri c s -> forall i, i ∈ s_subs s -> i <> 0%nat /\ is_Some (s_insts s !! i).
  Proof.
    revert c s. apply (reach_inv E d uri (fun c s => forall i, i ∈ s_subs s -> i <> 0%nat /\ is_Some (s_insts s !! i))).
    - intros i Hi. by apply elem_of_empty in Hi.
    - intros c s c' s' R F IH St i Hi.
      pose proof (rstep_grows E c s c' s' St) as G.
      assert (i ∈ s_subs s -> i <> 0%nat /\ is_Some (s_insts s' !! i)) as Hold.
      { intros Hin. destruct (IH i Hin) as [Hn [y Hy]]. split; [done|].
        destruct (inst_is_grows s s' i (i_def y) (i_host y) G) as (y' & Hy' & _); [by eexists|]. by eexists. }
      destruct St as [c s s' St| | | |]; try by apply Hold.
      destruct St; try by apply Hold.
      + apply Hold. match goal with Hs : _ ⊆ s_subs s |- _ => by apply Hs end.
      + cbn in Hi. apply elem_of_union in Hi as [Hi|Hi]; [|by apply Hold]. apply elem_of_singleton in Hi as ->.
        split; [done|]. cbn [p_sub p_log s_insts set_s_log set_s_insts set_s_sfctr set_s_subs]. rewrite lookup_insert. by eexists.
  Qed.

  Lemma inv_items c s : reach E d uri c s -> forall w t, (w, t) ∈ s_queue s -> is_Some (s_tis s !! t).
  Proof.
    intros R w t Hq. destruct (inv_rdy E d uri c s R) as (_ & H & _). destruct (H w t Hq) as (i & tk & (x & Hx & _) & _). by eexists.
  Qed.

  Lemma items_marshal c s : reach E d uri c s -> items s = marshal_item s <$> s_queue s.
  Proof.
    intros R. pose proof (inv_items c s R) as H. unfold items. revert H. generalize (s_queue s). intros q.
    induction q as [|[w t] q IH]; intros H; [done|]. destruct (H w t) as [x Hx]; [by left|]. rewrite fmap_cons, <- IH.
    - simpl. unfold marshal_item. simpl. by rewrite Hx.
    - intros w' t' Hin. eapply H. by right.
  Qed.
End Inv.

(** ** The queue *)
Lemma load_queue_ok m ss q :
  (forall w, w ∈ q -> w.2 = 0%nat \/ is_Some (ss !! w.2)) ->
  exists q', load_queue m ss q = Ok q' /\ fst <$> q' = q /\
    forall w b, (w, b) ∈ q' -> b = true <->
      exists f, (if decide (0 < w.2)%nat then ss !! w.2 else Some m) = Some f /\ is_Some (lf_tasks f !! w.1.2).
Proof.
  induction q as [|[[w id] b] q IH]; intros H.
  - exists []. split_and!; [done|done|]. intros ?? Hin. by apply elem_of_nil in Hin.
  - destruct IH as (q' & Hq & Hf & Hb). { intros w' Hw'. apply H. by right. }
    cbn [load_queue]. destruct (H ((w, id), b)) as [H0|[f Hs]]; [by left|..]; simpl in *.
    + subst b. rewrite decide_False by lia. rewrite Hq. eexists. split_and!; [done|by rewrite fmap_cons, Hf|].
      intros w' b' [[= -> ->]|Hin]%elem_of_cons; [|by apply Hb]. rewrite bool_decide_eq_true. simpl. split; [by eexists|]. intros (f & [= <-] & Hf'). done.
    + destruct (decide (0 < b)%nat) as [Hb0|Hb0].
      * rewrite Hs. simpl. rewrite Hq. eexists. split_and!; [done|by rewrite fmap_cons, Hf|].
        intros w' b' [[= -> ->]|Hin]%elem_of_cons; [|by apply Hb]. rewrite bool_decide_eq_true. cbn [fst snd]. rewrite decide_True by done. rewrite Hs.
        split; [by eexists|]. intros (f' & [= <-] & Hf'). done.
      * rewrite Hq. eexists. split_and!; [done|by rewrite fmap_cons, Hf|].
        intros w' b' [[= -> ->]|Hin]%elem_of_cons; [|by apply Hb]. rewrite bool_decide_eq_true. cbn [fst snd]. rewrite decide_False by done.
        split; [by eexists|]. intros (f' & [= <-] & Hf'). done.
Qed.
Lemma load_queue_lost m ss q w :
  w ∈ q -> w.2 <> 0%nat -> ss !! w.2 = None -> load_queue m ss q = Panic "nil subflow".
Proof.
  intros Hin Hn Hs. induction q as [|[[w1 id] b] q IH]; [by apply elem_of_nil in Hin|].
  cbn [load_queue]. apply elem_of_cons in Hin as [->|Hin].
  - simpl in *. rewrite decide_True by lia. by rewrite Hs.
  - rewrite (IH Hin). by destruct (if decide _ then _ else _).
Qed.

(** The counter of subflows. *)
Lemma counter_from (l : list (nat * saved_flow)) c :
  let r := foldl (fun c p => if decide (c < p.1)%nat then p.1 else c) c l in
  (c <= r)%nat /\ forall p, p ∈ l -> (p.1 <= r)%nat.
Proof.
  revert c. induction l as [|q l IH]; intros c; simpl.
  - split; [lia|]. intros p Hp. by apply elem_of_nil in Hp.
  - destruct (IH (if decide (c < q.1)%nat then q.1 else c)) as [H1 H2]. split.
    + case_decide; lia.
    + intros p [->|Hp]%elem_of_cons; [|by apply H2]. case_decide; lia.
Qed.

Section Reload.
  Local Set Default Proof Using "Type*".
  Context (E : env) (d : defn) (uri : string).

  Lemma subs_reload js s c (v v' : saved) l id v0 :
    reach E d uri c s -> marshal id s = Some v0 ->
    l ≡ₚ sv_subs v0 -> Forall2 (fun p q => p.1 = q.1 /\ same_flow p.2 q.2) l (sv_subs v) ->
    mapM (fun p => (fun f => (p.1, f)) <$> json_flow js p.2) (sv_subs v) = Some (sv_subs v') ->
    (sv_subs v').*1 ≡ₚ elements (s_subs s) /\
    forall i g, (i, g) ∈ sv_subs v' -> flow_kept js s i (load_flow g).
  Proof.
    intros R Hm Hl HF Hj. unfold marshal in Hm. destruct (s_insts s !! 0%nat) as [y0|]; [|done]. injection Hm as <-. simpl in Hl.
    assert (forall L, (forall i, i ∈ L -> is_Some (s_insts s !! i)) ->
      (omap (fun i => (fun z => (i, marshal_flow s z)) <$> s_insts s !! i) L).*1 = L) as Hk.
    { induction L as [|i L IH]; intros Hi; [done|]. destruct (Hi i) as [y Hy]; [by left|]. cbn [omap list_omap]. rewrite Hy. simpl. f_equal.
      apply IH. intros j Hj'. apply Hi. by right. }
    assert ((sv_subs v').*1 = (sv_subs v).*1) as K1.
    { apply mapM_Some in Hj. clear -Hj. induction Hj as [|p q a b Hpq Hj IH]; [done|]. rewrite !fmap_cons, IH. f_equal.
      destruct (json_flow js p.2); simpl in Hpq; [|done]. by injection Hpq as <-. }
    assert (l.*1 = (sv_subs v).*1) as K2.
    { clear -HF. induction HF as [|p q a b [Hpq _] Hj IH]; [done|]. by rewrite !fmap_cons, IH, Hpq. }
    split.
    - rewrite K1, <- K2, Hl, Hk; [done|]. intros i Hi. apply elem_of_elements in Hi. by eapply inv_live_subs.
    - intros i g Hin. apply elem_of_list_lookup in Hin as [n Hn]. apply mapM_Some in Hj.
      destruct (Forall2_lookup_r _ _ _ _ _ Hj Hn) as ([i1 f] & Hf & Hjf). simpl in Hjf.
      destruct (json_flow js f) as [g1|] eqn:Eg; [|done]. injection Hjf as <- <-.
      destruct (Forall2_lookup_r _ _ _ _ _ HF Hf) as ([i2 f2] & Hf2 & Hi2 & Hsf). simpl in *. subst i2.
      apply elem_of_list_lookup_2 in Hf2. rewrite Hl in Hf2. apply elem_of_list_omap in Hf2 as (i3 & Hi3 & He).
      destruct (s_insts s !! i3) as [y|] eqn:Hy; [|done]. injection He as -> <-. by eapply flow_roundtrip.
  Qed.

  Lemma reloaded js s c id v v' :
    reach E d uri c s -> saves id s v -> json_saved js v = Some v' -> (forall w, w ∈ items s -> live_item s w) ->
    exists l, unmarshal v' = Ok l /\ ld_id l = id /\
      flow_kept js s 0 (ld_main l) /\
      dom (ld_subs l) = s_subs s /\ (forall i f, ld_subs l !! i = Some f -> flow_kept js s i f) /\
      fst <$> ld_queue l = items s /\
      (forall w b, (w, b) ∈ ld_queue l -> b = true <->
        exists y, s_insts s !! w.2 = Some y /\ is_Some (i_tasks y !! w.1.2 ≫= fun t => s_tis s !! t)) /\
      (forall i, i ∈ s_subs s -> (i <= ld_sfctr l)%nat).
  Proof.
    intros R (v0 & l & Hm & Hid & Hq & Hmain & Hl & HF) Hj Hlive.
    unfold json_saved in Hj. destruct (json_flow js (sv_main v)) as [m|] eqn:Em; [|done]. cbn in Hj.
    destruct (mapM _ (sv_subs v)) as [ss|] eqn:Es; [|done]. cbn in Hj. injection Hj as <-.
    destruct (subs_reload js s c v (mk_saved (sv_id v) m (sv_queue v) ss) l id v0 R Hm Hl HF Es) as [Hk Hkept]. simpl in Hk, Hkept.
    assert (exists y0, s_insts s !! 0%nat = Some y0 /\ v0 = mk_saved id (marshal_flow s y0) (marshal_item s <$> s_queue s) (sv_subs v0)) as (y0 & Hy0 & Hv0).
    { unfold marshal in Hm. destruct (s_insts s !! 0%nat) as [y0|]; [|done]. injection Hm as <-. by exists y0. }
    rewrite Hv0 in Hid, Hq, Hmain. simpl in Hid, Hq, Hmain.
    pose proof (flow_roundtrip js s 0 y0 _ _ Hy0 Hmain Em) as Hmk.
    set (SS := build_map ((fun p => (p.1, load_flow p.2)) <$> ss) : gmap nat loaded_flow).
    assert (((fun p => (p.1, load_flow p.2)) <$> ss).*1 = ss.*1) as Hks by (rewrite <- list_fmap_compose; done).
    assert (NoDup ss.*1) as Hnd by (rewrite Hk; apply NoDup_elements).
    assert (forall i f, SS !! i = Some f -> flow_kept js s i f) as HSS.
    { intros i f Hf. apply build_lookup in Hf; [|by rewrite Hks]. apply elem_of_list_fmap in Hf as ([i1 g] & [= -> ->] & Hin). by apply Hkept. }
    assert (dom SS = s_subs s) as Hdom.
    { apply set_eq. intros i. rewrite elem_of_dom, <- elem_of_elements, <- Hk. split.
      - intros [f Hf]. apply build_lookup in Hf; [|by rewrite Hks]. rewrite <- Hks. by apply (elem_of_list_fmap_1 fst) in Hf.
      - intros Hin. rewrite <- Hks in Hin. apply elem_of_list_fmap in Hin as ([i1 f] & -> & Hin). exists f. apply build_lookup; [by rewrite Hks|done]. }
    destruct (load_queue_ok (load_flow m) SS (sv_queue v)) as (q' & Hq' & Hfq & Hb).
    { rewrite Hq, <- (items_marshal E d uri c s R). intros w Hw. destruct (Hlive w Hw) as [H|H]; [by left|right]. by apply elem_of_dom; rewrite Hdom. }
    eexists. split; [unfold unmarshal; simpl; fold SS; rewrite Hq'; reflexivity|]. simpl. split_and!; [done|done|done|done|..].
    - by rewrite Hfq, Hq, (items_marshal E d uri c s R).
    - intros w b Hin. rewrite (Hb w b Hin).
      assert (w ∈ items s) as Hw. { rewrite (items_marshal E d uri c s R), <- Hq, <- Hfq. by apply (elem_of_list_fmap_1 fst) in Hin. }
      assert (forall i f, flow_kept js s i f -> is_Some (lf_tasks f !! w.1.2) <->
        exists y, s_insts s !! i = Some y /\ is_Some (i_tasks y !! w.1.2 ≫= fun t => s_tis s !! t)) as Hfk.
      { intros i f (y & Hy & _ & _ & _ & Ht & _). rewrite Ht. rewrite Hy.
        assert (is_Some (i_tasks y !! w.1.2 ≫= fun t => ti_status <$> s_tis s !! t) <-> is_Some (i_tasks y !! w.1.2 ≫= fun t => s_tis s !! t)) as ->.
        { destruct (i_tasks y !! w.1.2) as [t|]; [|split; by intros [? ?]]. simpl. apply fmap_is_Some. }
        split; [by eexists|]. by intros (y' & [= <-] & H'). }
      destruct (decide (0 < w.2)%nat) as [Hw0|Hw0].
      + split.
        * intros (f & Hf & Hs). apply (Hfk w.2 f); [by apply HSS|done].
        * intros Hs. destruct (Hlive w Hw) as [H|H]; [lia|]. rewrite <- Hdom in H. apply elem_of_dom in H as [f Hf]. exists f. split; [done|].
          by apply (Hfk w.2 f); [apply HSS|].
      + assert (w.2 = 0%nat) as -> by lia. rewrite <- (Hfk 0%nat _ Hmk). split; [by intros (f & [= <-] & ?)|]. intros. by eexists.
    - intros i Hi. rewrite <- elem_of_elements, <- Hk in Hi. apply elem_of_list_fmap in Hi as (p & -> & Hp). by apply counter_from.
  Qed.

  Lemma reload_lost js s c id v v' w :
    reach E d uri c s -> saves id s v -> json_saved js v = Some v' -> w ∈ items s -> ~ live_item s w ->
    unmarshal v' = Panic "nil subflow".
  Proof.
    intros R (v0 & l & Hm & Hid & Hq & Hmain & Hl & HF) Hj Hw Hlive.
    unfold json_saved in Hj. destruct (json_flow js (sv_main v)) as [m|] eqn:Em; [|done]. cbn in Hj.
    destruct (mapM _ (sv_subs v)) as [ss|] eqn:Es; [|done]. cbn in Hj. injection Hj as <-.
    destruct (subs_reload js s c v (mk_saved (sv_id v) m (sv_queue v) ss) l id v0 R Hm Hl HF Es) as [Hk Hkept]. simpl in Hk, Hkept.
    unfold unmarshal. simpl. rewrite (load_queue_lost _ _ (sv_queue v) w); [done|..].
    - rewrite Hq. unfold marshal in Hm. destruct (s_insts s !! 0%nat) as [y0|]; [|done]. injection Hm as <-. simpl.
      by rewrite <- (items_marshal E d uri c s R).
    - intros H. apply Hlive. by left.
    - destruct (build_map _ !! w.2) as [f|] eqn:Hb; [|done]. exfalso. apply Hlive. right.
      assert (((fun p => (p.1, load_flow p.2)) <$> ss).*1 = ss.*1) as Hks by (rewrite <- list_fmap_compose; done).
      apply build_lookup in Hb; [|rewrite Hks, Hk; apply NoDup_elements]. rewrite <- elem_of_elements, <- Hk, <- Hks.
      by apply (elem_of_list_fmap_1 fst) in Hb.
  Qed.
End Reload.
