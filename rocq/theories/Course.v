(** The steps of a run preserve the invariant of Whole.v (proofs; no Go counterpart). *)
From Verif Require Export Whole.
Local Open Scope Z_scope.

(** Events that tell nothing about how tasks ended and links were decided. *)
Definition still (cur : option string) (e : event) : Prop :=
  match e with
  | EvTaskUpd 0 id z => ends z -> cur = Some id
  | EvLinkSet 0 _ _ | EvLinkEval 0 _ _ | EvAct _ _ _ _ | EvActEnd _ _ _ => False
  | _ => True
  end.

Section Course.
  Context (d : defn) (sync : mode) (calls_ok : Prop).
  Notation inv := (inv d sync calls_ok).
  Notation told := (told d calls_ok).

  Lemma told_still cur cur' F V y s y' s' l :
    told cur F V y s -> cur = None \/ cur' = cur -> s_log s' = l ++ s_log s -> Forall (still cur') l ->
    (forall id u x, F !! id = None -> cur <> Some id -> i_tasks y !! id = Some u -> s_tis s !! u = Some x -> ti_status x = TWaiting ->
       exists u' x', i_tasks y' !! id = Some u' /\ s_tis s' !! u' = Some x' /\ ti_status x' = TWaiting) ->
    told cur' F V y' s'.
  Proof.
    intros T Hc Hl Fl Hw. rewrite Forall_forall in Fl.
    assert (forall id, cur' <> Some id -> cur <> Some id) as Hcc by (intros id H; destruct Hc as [->| ->]; done).
    assert (evaluations s' = evaluations s) as He.
    { apply (evaluations_eq s s' l Hl). intros i id ins it H. exact (Fl _ H). }
    split.
    - intros id z Hz Hn H. rewrite Hl in H. apply elem_of_app in H as [H|H]; [|by apply (to_upd _ _ _ _ _ _ _ T); [|apply Hcc|]].
      by destruct Hn; apply (Fl _ H).
    - intros id z H. rewrite Hl. apply elem_of_app. right. by apply (to_F _ _ _ _ _ _ _ T).
    - intros k z H. rewrite Hl in H. apply elem_of_app in H as [H|H]; [by destruct (Fl _ H)|]. by apply (to_set _ _ _ _ _ _ _ T).
    - intros k z H. rewrite Hl. apply elem_of_app. right. by apply (to_V _ _ _ _ _ _ _ T).
    - intros k b H. rewrite Hl in H. apply elem_of_app in H as [H|H]; [by destruct (Fl _ H)|]. by apply (to_val _ _ _ _ _ _ _ T k b).
    - intros tk z Htk HF. destruct (to_rule _ _ _ _ _ _ _ T tk z Htk HF) as (v & H1 & H2). exists v. split; [done|].
      intros Hz l0 Hl0 Hty b. rewrite <- (H2 Hz l0 Hl0 Hty b). rewrite Hl, elem_of_app. split; [|by right].
      intros [H|H]; [by destruct (Fl _ H)|done].
    - apply T.
    - rewrite He. apply T.
    - intros i id H. rewrite He in H. destruct (to_eval _ _ _ _ _ _ _ T i id H) as (-> & Hor). split; [done|].
      destruct Hor as [->|[?|[?|(HN & u & x & Hu & Hx & Hs)]]]; [left; by destruct Hc as [?| ->]|by right; left|by right; right; left|].
      destruct (decide (cur = Some id)) as [->|Hn]; [left; by destruct Hc as [?| ->]|].
      right; right; right. split; [done|]. by apply (Hw id u x).
    - intros id Hc0 HF. rewrite He. by apply (to_call _ _ _ _ _ _ _ T).
    - intros id o Hc0 H. rewrite Hl in H. apply elem_of_app in H as [H|H]; [by destruct (Fl _ H)|].
      destruct (to_out _ _ _ _ _ _ _ T id o Hc0 H) as [->|[?|(HN & u & x & Hu & Hx & Hs)]]; [left; by destruct Hc as [?| ->]|by right; left|].
      destruct (decide (cur = Some id)) as [->|Hn]; [left; by destruct Hc as [?| ->]|].
      right; right. split; [done|]. by apply (Hw id u x).
    - intros id z Hc0 HF Hz. destruct (to_res _ _ _ _ _ _ _ T id z Hc0 HF Hz) as [o Ho]. exists o. rewrite Hl. apply elem_of_app. by right.
  Qed.

  Context (G : graph_ok d) (AC : acyclic d) (NS : no_shortcut d).
  Local Set Default Proof Using "Type*".

  (** ** Entering *)

  Definition entered_inst (tk : task) (t : nat) (y : inst) : inst :=
    set_i_tasks (<[t_id tk := t]> (i_tasks y)) (lmap (made (t_from tk)) y).

  Record enter_facts (tk : task) (K : list task) (F : gmap string Z) (V : gmap nat Z) (t : nat) (z : Z) (y : inst) (s s1 : st) : Prop := {
    ef_tk : tk ∈ d_tasks d;
    ef_F : F !! t_id tk = None;
    ef_insts : s_insts s1 !! 0%nat = Some (entered_inst tk t y);
    ef_o : forall u, (s_nti s1 <= u)%nat -> s_tis s1 !! u = None;
    ef_other : forall id u, id <> t_id tk -> i_tasks y !! id = Some u -> u <> t /\ s_tis s1 !! u = s_tis s !! u;
    ef_t : exists x, s_tis s1 !! t = Some x /\ ti_inst x = 0%nat /\ ti_task x = tk /\ ti_status x = z;
    ef_q : t ∉ (s_queue s).*2;
    ef_entered : forall u x, i_tasks y !! t_id tk = Some u -> s_tis s !! u = Some x -> ti_status x = TEntered;
    ef_eval : (0%nat, t_id tk) ∉ evaluations s;
    ef_out : forall o, calls_ok -> EvActEnd 0 (t_id tk) o ∉ s_log s;
    ef_K : forall k, k ∈ K -> k ∈ d_tasks d /\ t_id k <> t_id tk
  }.

  Lemma enter_facts_ok tk K F V t z y s s1 :
    inv None (tk :: K) F V y s -> enters 0 y tk t z s s1 -> enter_facts tk K F V t z y s s1.
  Proof.
    intros I N. destruct (iv_U1 _ _ _ _ _ _ _ _ _ I tk ltac:(left)) as (Htk & HF & _ & Hent).
    assert (i_tasks y !! t_id tk = Some t \/ (i_tasks y !! t_id tk = None /\ t = s_nti s)) as Ht.
    { destruct (en_t _ _ _ _ _ _ _ N) as [[? _]|(? & ? & _)]; [by left|by right]. }
    assert (forall id u, i_tasks y !! id = Some u -> exists x, s_tis s !! u = Some x /\ t_id (ti_task x) = id) as Hreg.
    { intros id u Hu. destruct (iv_reg _ _ _ _ _ _ _ _ _ I id u Hu) as (tk' & x & _ & <- & Hx & _ & <- & _). eauto. }
    pose proof (iv_o _ _ _ _ _ _ _ _ _ I) as O1.
    assert (s_tis s !! s_nti s = None) as Hfr by (apply O1; lia).
    assert (forall id u, id <> t_id tk -> i_tasks y !! id = Some u -> u <> t) as Hne.
    { intros id u Hid Hu ->. destruct (Hreg _ _ Hu) as (x & Hx & Hxi). destruct Ht as [Ht|[_ ->]]; [|congruence].
      destruct (Hreg _ _ Ht) as (x' & Hx' & Hxi'). congruence. }
    destruct (en_tis _ _ _ _ _ _ _ N) as (x1 & Htis & Hx1 & Hx2 & Hx3 & _).
    split; try done.
    - rewrite (en_insts _ _ _ _ _ _ _ N). apply lookup_insert.
    - intros u Hu. rewrite Htis. assert (s_nti s <= s_nti s1 /\ t < s_nti s1)%nat as [H1 H2].
      { destruct (en_t _ _ _ _ _ _ _ N) as [[H ->]|(_ & -> & ->)]; [|lia]. split; [lia|]. destruct (decide (t < s_nti s)%nat) as [|Hge]; [done|].
        destruct (Hreg _ _ H) as (x & Hx & _). rewrite O1 in Hx by lia. done. }
      rewrite lookup_insert_ne by lia. apply O1. lia.
    - intros id u Hid Hu. specialize (Hne id u Hid Hu). split; [done|]. rewrite Htis. by rewrite lookup_insert_ne.
    - exists x1. split; [|done]. rewrite Htis. apply lookup_insert.
    - intros ((w & u) & -> & Hwu)%elem_of_list_fmap. cbn in *. destruct (iv_queue _ _ _ _ _ _ _ _ _ I w u Hwu) as (id & x & Hid & _ & _ & Hx & Hst).
      destruct Ht as [Ht|[_ ->]]; [|congruence]. specialize (Hent u x Ht Hx). rewrite Hst in Hent. done.
    - intros H. destruct (to_eval _ _ _ _ _ _ _ (iv_told _ _ _ _ _ _ _ _ _ I) _ _ H) as (_ & [?|[?|[?|(_ & u & x & Hu & Hx & Hs)]]]); [done|congruence..|].
      specialize (Hent u x Hu Hx). rewrite Hs in Hent. done.
    - intros o Hc H. destruct (to_out _ _ _ _ _ _ _ (iv_told _ _ _ _ _ _ _ _ _ I) _ _ Hc H) as [?|[?|(_ & u & x & Hu & Hx & Hs)]]; [done|congruence|].
      specialize (Hent u x Hu Hx). rewrite Hs in Hent. done.
    - intros k Hk. destruct (iv_U1 _ _ _ _ _ _ _ _ _ I k ltac:(by right)) as (Hkd & _). split; [done|]. intros He.
      pose proof (g_task_inj d G k tk Hkd Htk He) as ->. pose proof (iv_U _ _ _ _ _ _ _ _ _ I) as HN. by apply NoDup_cons in HN as [HN _].
  Qed.

  (** The task is entered with status [z] and possibly put into the queue. *)
  Lemma inv_enter tk K F V t z cur' q y s s1 s2 l :
    inv None (tk :: K) F V y s -> enters 0 y tk t z s s1 ->
    (z = TEntered /\ q = [] /\ cur' = None /\ ~ ready F tk) \/
    (z = TReady /\ (exists w, q = [(w, t)]) /\ cur' = None /\ ready F tk /\ live V tk) \/
    (z = TSkipped /\ q = [] /\ cur' = Some (t_id tk) /\ ready F tk /\ ~ live V tk) ->
    s_insts s2 = s_insts s1 -> (forall u, u <> t -> s_tis s2 !! u = s_tis s1 !! u) ->
    (exists x, s_tis s2 !! t = Some x /\ ti_inst x = 0%nat /\ ti_task x = tk /\ ti_status x = z) ->
    s_queue s2 = s_queue s ++ q -> s_nti s2 = s_nti s1 -> s_log s2 = l ++ s_log s -> Forall (still cur') l ->
    inv cur' K F V (entered_inst tk t y) s2.
  Proof.
    intros I N Hcase Hi2 Ht2 (x2 & Hx2 & Hxi & Hxt & Hxs) Hq2 Hn2 Hl2 Fl2.
    destruct (enter_facts_ok _ _ _ _ _ _ _ _ _ I N) as [Htk HF Hin Ho Hoth _ Htq Hent Hev _ HK].
    assert (cur' = None \/ cur' = Some (t_id tk)) as Hcur by (destruct Hcase as [(_ & _ & -> & _)|[(_ & _ & -> & _)|(_ & _ & -> & _)]]; auto).
    assert (forall id, id <> t_id tk -> cur' <> Some id) as Hcne by (intros id Hid; destruct Hcur as [->| ->]; congruence).
    assert (forall id u, id <> t_id tk -> i_tasks (entered_inst tk t y) !! id = Some u <-> i_tasks y !! id = Some u) as Hrest.
    { intros id u Hid. cbn [entered_inst i_tasks set_i_tasks]. by rewrite lookup_insert_ne. }
    assert (i_tasks (entered_inst tk t y) !! t_id tk = Some t) as Hself by apply lookup_insert.
    assert (forall id u x, id <> t_id tk -> i_tasks y !! id = Some u -> s_tis s !! u = Some x -> s_tis s2 !! u = Some x) as Hkeep.
    { intros id u x Hid Hu Hx. destruct (Hoth id u Hid Hu) as [Hne Hs]. by rewrite Ht2, Hs. }
    split.
    - by rewrite Hi2.
    - apply I.
    - apply I.
    - intros Hs. exact (iv_force _ _ _ _ _ _ _ _ _ I Hs).
    - intros u Hu. rewrite Hn2 in Hu. destruct (decide (u = t)) as [->|]; [|rewrite Ht2 by done; by apply Ho].
      destruct (en_tis _ _ _ _ _ _ _ N) as (x1 & Htis & _). specialize (Ho t Hu). rewrite Htis, lookup_insert in Ho. done.
    - apply I.
    - apply I.
    - apply I.
    - apply I.
    - intros l0 Hl0 Hto. rewrite <- (iv_links _ _ _ _ _ _ _ _ _ I l0 Hl0 Hto). exact (status_made (t_from tk) y l0).
    - intros id u Hu. destruct (decide (id = t_id tk)) as [->|Hid].
      + rewrite Hself in Hu. injection Hu as <-. exists tk, x2. split_and!; try done; [rewrite HF; by intros [? ?]|].
        intros _ Hc. destruct Hcase as [(-> & _)|[(-> & _ & _ & ? & ?)|(_ & _ & -> & _)]]; [by left|right; by split; [left|]|done].
      + apply Hrest in Hu; [|done]. destruct (iv_reg _ _ _ _ _ _ _ _ _ I id u Hu) as (tk' & x & H1 & H2 & H3 & H4 & H5 & H6 & H7).
        exists tk', x. split_and!; try done; [by apply (Hkeep id)|]. intros HN _. by apply H7.
    - intros w u Hwu. rewrite Hq2 in Hwu. apply elem_of_app in Hwu as [Hwu|Hwu].
      + destruct (iv_queue _ _ _ _ _ _ _ _ _ I w u Hwu) as (id & x & H1 & H2 & H3 & H4 & H5).
        destruct (decide (id = t_id tk)) as [->|Hid]; [by rewrite (Hent u x H1 H4) in H5|].
        exists id, x. split_and!; [by apply Hrest|done|by apply Hcne|by apply (Hkeep id)|done].
      + destruct Hcase as [(_ & -> & _)|[(-> & (w' & ->) & -> & _)|(_ & -> & _)]]; [by apply elem_of_nil in Hwu| |by apply elem_of_nil in Hwu].
        apply elem_of_list_singleton in Hwu. injection Hwu as Hw1 Hw2. subst w u. exists (t_id tk), x2. done.
    - rewrite Hq2, fmap_app. apply NoDup_app. split_and!; [apply I| |].
      + intros u Hu Hu'. destruct Hcase as [(_ & -> & _)|[(_ & (w' & ->) & _)|(_ & -> & _)]]; [by apply elem_of_nil in Hu'| |by apply elem_of_nil in Hu'].
        apply elem_of_list_singleton in Hu'. cbn in Hu'. by subst u.
      + destruct Hcase as [(_ & -> & _)|[(_ & (w' & ->) & _)|(_ & -> & _)]]; [apply NoDup_nil_2|apply NoDup_singleton|apply NoDup_nil_2].
    - intros tk' Htk' HF' Hc' Hr' Hnk. destruct (decide (t_id tk' = t_id tk)) as [He|Hid].
      + apply (g_task_inj d G) in He; [|done..]. subst tk'. destruct Hcase as [(_ & _ & _ & ?)|[(_ & (w' & ->) & _)|(_ & _ & -> & _)]]; [done| |done].
        exists t, x2. split_and!; [done|done|]. left. rewrite Hq2, fmap_app. apply elem_of_app. right. cbn. left.
      + destruct (iv_ready _ _ _ _ _ _ _ _ _ I tk' Htk' HF' ltac:(done) Hr') as (u & x & H1 & H2 & H3).
        { intros [->|?]%elem_of_cons; done. }
        exists u, x. split_and!; [by apply Hrest|by apply (Hkeep (t_id tk'))|]. destruct H3 as [H3|H3]; [left|by right].
        rewrite Hq2, fmap_app. apply elem_of_app. by left.
    - intros l0 tk' Htk' Hl0 HV HF' Hnk. destruct (decide (t_id tk' = t_id tk)) as [He|Hid]; [exists t; by rewrite He|].
      destruct (iv_seen _ _ _ _ _ _ _ _ _ I l0 tk' Htk' Hl0 HV HF') as [u Hu]; [intros [->|?]%elem_of_cons; done|].
      exists u. by apply Hrest.
    - apply I.
    - apply I.
    - pose proof (iv_U _ _ _ _ _ _ _ _ _ I) as HN. apply NoDup_cons in HN. apply HN.
    - intros k Hk. destruct (HK k Hk) as [_ Hid]. destruct (iv_U1 _ _ _ _ _ _ _ _ _ I k ltac:(by right)) as (H1 & H2 & _ & H3).
      split_and!; [done|done|by apply Hcne|]. intros u x Hu Hx. apply Hrest in Hu; [|done].
      destruct (iv_reg _ _ _ _ _ _ _ _ _ I _ u Hu) as (tk' & x' & _ & _ & H5 & _). rewrite (Hkeep (t_id k) u x' Hid Hu H5) in Hx. injection Hx as <-.
      by apply (H3 u x').
    - destruct (iv_U2 _ _ _ _ _ _ _ _ _ I) as [_ H2]. eapply opairs_mono; [|exact H2]. cbn beta. intros a b Ha Hb [H3 H4]. split; [done|].
      intros Hlb HN. apply H4; [done|]. cbn [entered_inst i_tasks set_i_tasks] in HN. rewrite lookup_insert_ne in HN; [done|]. by apply not_eq_sym, (HK b Hb).
    - apply (told_still None cur' F V y s _ s2 l); [apply I|by left|done|done|]. intros id u x _ _ Hu Hx Hw.
      destruct (decide (id = t_id tk)) as [->|Hid]; [by rewrite (Hent u x Hu Hx) in Hw|].
      exists u, x. split_and!; [by apply Hrest|by apply (Hkeep id)|done].
  Qed.
  (** ** Ending a task *)

  (** The links of the task are decided. *)
  Definition decided (tk : task) (z : Z) (v : nat -> bool) (V : gmap nat Z) : gmap nat Z :=
    list_to_map ((fun l => (l_id l, fate z (t_to tk) v l)) <$> t_to tk) ∪ V.
  Lemma decided_in tk z v V l : tk ∈ d_tasks d -> l ∈ t_to tk -> decided tk z v V !! l_id l = Some (fate z (t_to tk) v l).
  Proof.
    intros Htk Hl. apply lookup_union_Some_l. apply elem_of_list_to_map_1.
    - rewrite <- list_fmap_compose. by apply (g_to_nodup d G).
    - apply elem_of_list_fmap. eauto.
  Qed.
  Lemma decided_out tk z v V k : k ∉ l_id <$> t_to tk -> decided tk z v V !! k = V !! k.
  Proof.
    intros Hk. unfold decided. rewrite lookup_union_r; [done|]. apply not_elem_of_list_to_map_1. by rewrite <- list_fmap_compose.
  Qed.
  Lemma fate_decision z ls v l : ends z -> decision (fate z ls v l).
  Proof.
    intros _. unfold fate, decision. destruct (decide _); [by right; right|].
    destruct (decide _); [destruct (is_type _ _)|destruct (followed _ _ _)]; auto.
  Qed.

  (** Links that leave one task have different targets. *)
  Lemma no_shortcut_to tk a l1 b l2 c : tk ∈ d_tasks d -> t_to tk = a ++ l1 :: b ++ l2 :: c -> ~ above d (l_to l1) (l_to l2).
  Proof.
    intros Htk He. assert (l_from l1 = t_id tk /\ l_from l2 = t_id tk) as [H1 H2].
    { split; apply (g_to d G tk _ Htk); rewrite He; set_solver. }
    rewrite (so_to _ _ _ _ (proj1 G) tk Htk) in He.
    assert (exists a b c, d_links d = a ++ l1 :: b ++ l2 :: c) as (a' & b' & c' & Hd); [|by apply (NS a' l1 b' l2 c'); [|congruence]].
    clear - He. revert a He. generalize (d_links d) as ls.
    assert (forall P (ls : list link) (a c : list link) l, List.filter P ls = a ++ l :: c -> exists a' c', ls = a' ++ l :: c' /\ List.filter P c' = c) as Hone.
    { clear. intros P. induction ls as [|x ls IH]; intros a c l H; cbn in H; [by destruct a|].
      destruct (P x); [|destruct (IH _ _ _ H) as (a' & c' & -> & H'); by exists (x :: a'), c'].
      destruct a as [|y a]; injection H as -> H; [by exists [], ls|]. destruct (IH _ _ _ H) as (a' & c' & -> & H'). by exists (y :: a'), c'. }
    intros ls a He. destruct (Hone _ _ _ _ _ He) as (a1 & c1 & -> & H1). destruct (Hone _ _ _ _ _ H1) as (b1 & c2 & -> & _). eauto.
  Qed.
  Lemma to_target_nodup tk : tk ∈ d_tasks d -> NoDup (l_to <$> t_to tk).
  Proof.
    intros Htk. assert (opairs (fun l1 l2 => l_to l1 <> l_to l2) (t_to tk)) as H.
    { apply opairs_index. intros a l1 b l2 c He Heq. apply (no_shortcut_to tk a l1 b l2 c Htk He). rewrite Heq. apply rtc_refl. }
    clear - H. induction (t_to tk) as [|l ls IH]; [constructor|]. destruct H as [H1 H2]. rewrite fmap_cons. apply NoDup_cons. split; [|by apply IH].
    intros (l' & He & Hl')%elem_of_list_fmap. by apply (H1 l').
  Qed.
  Lemma to_target_inj tk l l' : tk ∈ d_tasks d -> l ∈ t_to tk -> l' ∈ t_to tk -> l_to l = l_to l' -> l = l'.
  Proof.
    intros Htk Hl Hl' He. pose proof (to_target_nodup tk Htk) as N. apply elem_of_list_lookup in Hl as [n Hn]. apply elem_of_list_lookup in Hl' as [n' Hn'].
    assert (n = n') as ->; [|congruence]. eapply NoDup_lookup; [exact N| |]; rewrite list_lookup_fmap; [by rewrite Hn|by rewrite Hn', He].
  Qed.
  Lemma filter_index {A} (P : A -> bool) ls a x b y c : List.filter P ls = a ++ x :: b ++ y :: c -> exists a' b' c', ls = a' ++ x :: b' ++ y :: c'.
  Proof.
    assert (forall (ls : list A) (a c : list A) l, List.filter P ls = a ++ l :: c -> exists a' c', ls = a' ++ l :: c' /\ List.filter P c' = c) as Hone.
    { clear. induction ls as [|z ls IH]; intros a c l H; cbn in H; [by destruct a|].
      destruct (P z); [|destruct (IH _ _ _ H) as (a' & c' & -> & H'); by exists (z :: a'), c'].
      destruct a as [|y' a]; injection H as -> H; [by exists [], ls|]. destruct (IH _ _ _ H) as (a' & c' & -> & H'). by exists (y' :: a'), c'. }
    intros He. destruct (Hone _ _ _ _ He) as (a1 & c1 & -> & H1). destruct (Hone _ _ _ _ H1) as (b1 & c2 & -> & _). eauto.
  Qed.

  Lemma inv_close tk K F V t z v es cur y x y' x' ev n s :
    inv cur K F V y s -> cur = Some (t_id tk) ->
    tk ∈ d_tasks d -> i_tasks y !! t_id tk = Some t -> s_tis s !! t = Some x -> ti_task x = tk ->
    F !! t_id tk = None -> ready F tk ->
    (forall k, k ∈ K -> ~ above d (t_id tk) (t_id k)) ->
    (forall k, k ∈ K -> live V k -> is_Some (i_tasks y !! t_id k)) ->
    closing 0 y x z v es y' x' ev -> ends z -> EvTaskUpd 0 (t_id tk) z ∈ ev ->
    (z = TSkipped <-> ~ live V tk) ->
    (z = TSkipped \/ i_status y = FActive) ->
    (forall z', ends z' -> EvTaskUpd 0 (t_id tk) z' ∈ s_log s -> z' = z) ->
    (z = TSkipped -> (0%nat, t_id tk) ∉ evaluations s) ->
    (calls_ok -> z <> TSkipped -> (0%nat, t_id tk) ∈ evaluations s) ->
    (calls_ok -> forall o, EvActEnd 0 (t_id tk) o ∈ s_log s -> z = ended o) ->
    (calls_ok -> z <> TSkipped -> exists o, EvActEnd 0 (t_id tk) o ∈ s_log s) ->
    inv None (es.*1 ++ K) (<[t_id tk := z]> F) (decided tk z v V) y' (put 0 t y' x' ev n s).
  Proof.
    intros I Hcur Htk Hreg Hx Hxt HF Hrd Hsep Hnew CL Hz Hupd Hlive Hact Hold Hne Hcall Hout Hres.
    destruct CL as [C1 C2 C3 C4 C5 C6 C7 C8 (A & C9) C10 C11 C12]. rewrite Hxt in C6, C7, C8, C9, C10, C11, C12. cbv zeta in C9.
    set (B := List.filter _ (t_to tk)) in C9. destruct C9 as (Ces & Cperm & CA).
    set (id := t_id tk) in *. set (F' := <[id := z]> F). set (V' := decided tk z v V).
    assert (F' !! id = Some z) as HFid by apply lookup_insert.
    assert (forall j, j <> id -> F' !! j = F !! j) as HFne by (intros j Hj; by apply lookup_insert_ne).
    assert (forall j, is_Some (F !! j) -> is_Some (F' !! j)) as HFm.
    { intros j Hj. destruct (decide (j = id)) as [->|]; [by rewrite HFid|by rewrite HFne]. }
    assert (forall j, F' !! j = None -> j <> id /\ F !! j = None) as HFN.
    { intros j Hj. destruct (decide (j = id)) as [->|]; [by rewrite HFid in Hj|]. by rewrite HFne in Hj. }
    assert (forall l, l ∈ d_links d -> l ∈ t_to tk \/ (l_from l <> id /\ l_id l ∉ l_id <$> t_to tk)) as Hlor.
    { intros l Hl. destruct (decide (l_from l = id)) as [He|Hn]; [left; by apply (g_to d G)|right]. split; [done|].
      by rewrite (g_to_id d G tk l Htk Hl). }
    assert (forall l, l ∈ t_to tk -> l ∈ d_links d /\ l_from l = id) as Hto by (intros l Hl; by apply (g_to d G tk l Htk)).
    assert (forall l, l ∈ t_to tk -> V' !! l_id l = Some (fate z (t_to tk) v l)) as HVin by (intros l Hl; by apply decided_in).
    assert (forall k, k ∉ l_id <$> t_to tk -> V' !! k = V !! k) as HVout by (intros k Hk; by apply decided_out).
    assert (forall l, l ∈ t_to tk -> V !! l_id l = None) as HVn.
    { intros l Hl. destruct (Hto l Hl) as [H1 H2]. destruct (V !! l_id l) as [zz|] eqn:He; [|done].
      destruct (proj1 (iv_V _ _ _ _ _ _ _ _ _ I l H1)) as [z0 Hz0]; [by rewrite He|]. rewrite H2 in Hz0. congruence. }
    assert (forall k z0, V !! k = Some z0 -> V' !! k = Some z0) as HVm.
    { intros k z0 Hk. rewrite HVout; [done|]. intros (l & -> & Hl)%elem_of_list_fmap. by rewrite HVn in Hk. }
    assert (forall k, live V k -> live V' k) as Hlm by (intros k [?|(l & Hl & Hk)]; [by left|right; exists l; auto]).
    assert (forall k, k ∈ d_tasks d -> (forall l, l ∈ t_from k -> l_from l <> id) -> live V' k -> live V k) as Hlb.
    { intros k Hk Hno [?|(l & Hl & Hlk)]; [by left|]. right. exists l. split; [done|]. rewrite HVout in Hlk; [done|].
      destruct (Hlor l) as [Hin|[_ ?]]; [by apply (g_from d G k l Hk)| |done]. by destruct (Hno l Hl), (Hto l Hin). }
    assert (forall j u x0, j <> id -> i_tasks y !! j = Some u -> s_tis s !! u = Some x0 -> s_tis (put 0 t y' x' ev n s) !! u = Some x0) as Hkeep.
    { intros j u x0 Hj Hu Hx0. rewrite put_ti_ne; [done|]. intros ->. destruct (iv_reg _ _ _ _ _ _ _ _ _ I j t Hu) as (tk' & x1 & _ & H2 & H3 & _ & H4 & _).
      rewrite Hx in H3. injection H3 as <-. apply Hj. rewrite <- H2, <- H4, Hxt. reflexivity. }
    assert (forall e, e ∈ es.*1 -> exists l, l ∈ t_to tk /\ l ∈ A ++ B /\ link_target d l = Some e) as Hes1.
    { intros e He. apply elem_of_list_lookup in He as [m Hm]. rewrite list_lookup_fmap in Hm. destruct (es !! m) as [e0|] eqn:He0; [|done].
      injection Hm as <-. destruct (Forall2_lookup_l _ _ _ _ _ Ces He0) as (l & Hl & Ht). exists l. rewrite <- (iv_d _ _ _ _ _ _ _ _ _ I).
      apply elem_of_list_lookup_2 in Hl. split_and!; [by rewrite <- Cperm|done|done]. }
    assert (forall l e, l ∈ t_to tk -> link_target d l = Some e -> e ∈ es.*1) as Hes2.
    { intros l e Hl Ht. rewrite <- Cperm in Hl. apply elem_of_list_lookup in Hl as [m Hm].
      destruct (Forall2_lookup_r _ _ _ _ _ Ces Hm) as (e0 & He0 & Ht0). rewrite (iv_d _ _ _ _ _ _ _ _ _ I) in Ht0. rewrite Ht in Ht0. injection Ht0 as ->.
      apply elem_of_list_fmap. exists e0. split; [done|]. by eapply elem_of_list_lookup_2. }
    assert (forall l e, l ∈ t_to tk -> link_target d l = Some e -> e ∈ d_tasks d /\ t_id e = l_to l /\ l ∈ t_from e /\ above d id (t_id e) /\ t_id e <> id /\ F !! t_id e = None) as Htg.
    { intros l e Hl Ht. destruct (Hto l Hl) as [Hl1 Hl2]. destruct (g_target_is d G l e Hl1 Ht) as [He1 He2].
      assert (above d id (t_id e)) as Hab by (rewrite He2, <- Hl2; by apply above_link).
      split_and!; [done|done|by apply (g_from d G)|done| |].
      - intros Heq. apply (above_not_back d G AC l Hl1). rewrite <- He2, Heq, Hl2. apply rtc_refl.
      - destruct (F !! t_id e) as [zz|] eqn:HFe; [|done]. destruct (iv_down _ _ _ _ _ _ _ _ _ I l Hl1) as [z0 Hz0]; [rewrite <- He2; by rewrite HFe|].
        rewrite Hl2 in Hz0. congruence. }
    assert (forall k, k ∈ d_tasks d -> k ∉ es.*1 -> forall l, l ∈ t_from k -> l_from l <> id) as Hnes.
    { intros k Hk Hn l Hl Hlf. apply (g_from d G k l Hk) in Hl as [Hl1 Hl2]. apply Hn.
      assert (l ∈ t_to tk) as Hin by (by apply (g_to d G)). destruct (g_target d G l Hl1) as (e & He1 & He2 & He3).
      assert (e = k) as -> by (apply (g_task_inj d G); congruence). by apply (Hes2 l). }
    assert (forall k, k ∈ K -> k ∉ es.*1) as HKes.
    { intros k Hk He. destruct (Hes1 k He) as (l & Hl & _ & Ht). destruct (Htg l k Hl Ht) as (_ & _ & _ & Hab & _). by apply (Hsep k Hk). }
    assert (forall j, cur <> Some j <-> j <> id) as Hcj by (intros j; rewrite Hcur; split; congruence).
    split.
    - apply put_inst.
    - rewrite C2. apply I.
    - rewrite C4. apply I.
    - intros Hs. rewrite C5. by apply (iv_force _ _ _ _ _ _ _ _ _ I).
    - intros u Hu. rewrite put_ti_ne; [by apply (iv_o _ _ _ _ _ _ _ _ _ I)|]. intros ->. by rewrite (iv_o _ _ _ _ _ _ _ _ _ I) in Hx.
    - intros j z0 Hj. destruct (decide (j = id)) as [->|Hjn]; [rewrite HFid in Hj; injection Hj as <-; eauto|].
      rewrite HFne in Hj by done. by apply (iv_F _ _ _ _ _ _ _ _ _ I).
    - intros l Hl H. apply HFm. destruct (decide (l_to l = id)) as [He|Hn].
      + apply Hrd. by apply (g_from d G).
      + rewrite HFne in H by done. by apply (iv_down _ _ _ _ _ _ _ _ _ I).
    - intros l Hl. destruct (Hlor l Hl) as [Hin|[Hn Ho]].
      + rewrite (HVin l Hin). rewrite (proj2 (Hto l Hin)), HFid. split; by eauto.
      + rewrite HVout, HFne by done. by apply (iv_V _ _ _ _ _ _ _ _ _ I).
    - intros k z0 Hk. destruct (decide (k ∈ l_id <$> t_to tk)) as [(l & -> & Hl)%elem_of_list_fmap|Hn].
      + rewrite (HVin l Hl) in Hk. injection Hk as <-. by apply fate_decision.
      + rewrite HVout in Hk by done. by apply (iv_Vz _ _ _ _ _ _ _ _ _ I k).
    - intros l Hl Hto'. apply HFN in Hto' as [Hn HN]. destruct (Hlor l Hl) as [Hin|[Hfn Ho]].
      + by rewrite C6, HVin.
      + rewrite C7, HVout by done. by apply (iv_links _ _ _ _ _ _ _ _ _ I).
    - intros j u Hu. rewrite C1 in Hu. destruct (iv_reg _ _ _ _ _ _ _ _ _ I j u Hu) as (tk' & x0 & H1 & H2 & H3 & H4 & H5 & H6 & H7).
      destruct (decide (j = id)) as [->|Hj].
      + assert (u = t) as -> by congruence. destruct C8 as (C8a & C8b & C8c). exists tk, x'. split_and!; [done|done|apply put_ti|done|done| |].
        * intros _. rewrite C8a. destruct Hz as [->|[->| ->]]; by vm_compute.
        * by rewrite HFid.
      + exists tk', x0. split_and!; [done|done|by apply (Hkeep j)|done|done|by rewrite HFne|]. rewrite HFne by done. intros HN _.
        destruct (H7 HN) as [?|(Ha & Hb & Hc)]; [by apply Hcj|by left|right]. split_and!; [done| |by apply Hlm]. intros l Hl. by apply HFm, Hb.
    - intros w u Hwu. destruct (iv_queue _ _ _ _ _ _ _ _ _ I w u Hwu) as (j & x0 & H1 & H2 & H3 & H4 & H5). apply Hcj in H3.
      exists j, x0. rewrite C1, HFne by done. split_and!; [done|done|done|by apply (Hkeep j)|done].
    - apply I.
    - intros k Hk HFk _ Hrk Hnk. apply not_elem_of_app in Hnk as [Hn1 Hn2]. apply HFN in HFk as [Hkid HFk].
      destruct (iv_ready _ _ _ _ _ _ _ _ _ I k Hk HFk) as (u & x0 & H1 & H2 & H3); [by apply Hcj| |done|].
      + intros l Hl. specialize (Hrk l Hl). by rewrite HFne in Hrk by (by apply (Hnes k Hk Hn1)).
      + exists u, x0. rewrite C1. split_and!; [done|by apply (Hkeep (t_id k))|done].
    - intros l k Hk Hl HVl HFk Hnk. apply not_elem_of_app in Hnk as [Hn1 Hn2]. apply HFN in HFk as [Hkid HFk]. rewrite C1.
      apply (iv_seen _ _ _ _ _ _ _ _ _ I l k); [done|done| |done|done]. rewrite HVout in HVl; [done|].
      destruct (Hlor l) as [Hin|[_ ?]]; [by apply (g_from d G k l Hk)| |done]. by destruct (Hnes k Hk Hn1 l Hl), (Hto l Hin).
    - rewrite C3. apply I.
    - rewrite C3. intros Hc k Hk HFk. apply HFN in HFk as [_ HFk]. destruct Hact as [Hzs|Ha]; [|by rewrite Ha in Hc].
      intros Hl. apply (iv_comp _ _ _ _ _ _ _ _ _ I Hc k Hk HFk). destruct Hl as [?|(l & Hl & HVl)]; [by left|]. right. exists l. split; [done|].
      rewrite HVout in HVl; [done|]. destruct (Hlor l) as [Hin|[_ ?]]; [by apply (g_from d G k l Hk)| |done].
      rewrite (HVin l Hin) in HVl. subst z. done.
    - apply NoDup_app. split_and!; [|by intros e He1 He2; apply (HKes e)|apply I].
      apply (NoDup_fmap_1 t_id). assert (t_id <$> es.*1 = l_to <$> (A ++ B)) as ->.
      { assert (forall l, l ∈ A ++ B -> l ∈ d_links d) as H by (intros l Hl; rewrite Cperm in Hl; by apply Hto).
        clear - Ces H G I. revert Ces H. generalize (A ++ B) as AB. intros AB Ces. induction Ces as [|e l es' ls He _ IH]; [done|].
        intros H. rewrite !fmap_cons. f_equal.
        - rewrite (iv_d _ _ _ _ _ _ _ _ _ I) in He. apply (g_target_is d G l); [|done]. apply H. left.
        - apply IH. intros l' Hl'. apply H. by right. }
      rewrite Cperm. by apply to_target_nodup.
    - intros e [He|He]%elem_of_app.
      + destruct (Hes1 e He) as (l & Hl & _ & Ht). destruct (Htg l e Hl Ht) as (H1 & H2 & H3 & H4 & H5 & H6).
        split_and!; [done|by rewrite HFne|done|]. intros u x0 Hu Hx0. rewrite C1 in Hu.
        destruct (iv_reg _ _ _ _ _ _ _ _ _ I (t_id e) u Hu) as (tk' & x1 & G1 & G2 & G3 & G4 & G5 & G6 & G7).
        rewrite (Hkeep _ _ _ H5 Hu G3) in Hx0. injection Hx0 as <-. destruct (G7 H6) as [?|(_ & Gb & _)]; [by apply Hcj|done|].
        assert (tk' = e) as -> by (by apply (g_task_inj d G)). destruct (Gb l H3) as [z0 Hz0]. rewrite (proj2 (Hto l Hl)) in Hz0. congruence.
      + destruct (iv_U1 _ _ _ _ _ _ _ _ _ I e He) as (H1 & H2 & H3 & H4). apply Hcj in H3. split_and!; [done|by rewrite HFne|done|].
        intros u x0 Hu Hx0. rewrite C1 in Hu. destruct (iv_reg _ _ _ _ _ _ _ _ _ I (t_id e) u Hu) as (tk' & x1 & G1 & G2 & G3 & _).
        rewrite (Hkeep _ _ _ H3 Hu G3) in Hx0. injection Hx0 as <-. by apply (H4 u x1).
    - apply opairs_app. split_and!.
      + (* the successors among each other *)
        apply opairs_index. intros a e1 b e2 c Hsplit.
        assert (exists a1 l1 b1 l2 c1, A ++ B = a1 ++ l1 :: b1 ++ l2 :: c1 /\ link_target d l1 = Some e1 /\ link_target d l2 = Some e2) as (a1 & l1 & b1 & l2 & c1 & Hab & Ht1 & Ht2).
        { assert (Forall2 (fun e l => link_target d l = Some e) es.*1 (A ++ B)) as Hf2.
          { apply Forall2_fmap_l. eapply Forall2_impl; [exact Ces|]. intros e l. cbn. by rewrite (iv_d _ _ _ _ _ _ _ _ _ I). }
          rewrite Hsplit in Hf2. apply Forall2_app_inv_l in Hf2 as (p & q & _ & Hf2 & Hp). apply Forall2_cons_inv_l in Hf2 as (l1 & q' & H1 & Hf2 & ->).
          apply Forall2_app_inv_l in Hf2 as (p' & q'' & _ & Hf2 & ->). apply Forall2_cons_inv_l in Hf2 as (l2 & q3 & H2 & _ & ->). eauto 10. }
        assert (l1 ∈ t_to tk /\ l2 ∈ t_to tk) as [Hl1 Hl2] by (split; rewrite <- Cperm, Hab; set_solver).
        destruct (Htg l1 e1 Hl1 Ht1) as (E1 & E2 & E3 & E4 & E5 & E6). destruct (Htg l2 e2 Hl2 Ht2) as (E7 & E8 & E9 & E10 & E11 & E12).
        destruct (decide (fate z (t_to tk) v l1 = LTrue)) as [Htr|Htr].
        { assert (live V' e1) as Hlv by (right; exists l1; split; [done|]; by rewrite HVin, Htr). split; [by left|done]. }
        assert (exists a2 b2 c2, B = a2 ++ l1 :: b2 ++ l2 :: c2) as (a2 & b2 & c2 & HB).
        { assert (l1 ∉ A) as HnA by (intros H; by apply Htr, CA).
          clear - Hab HnA. revert a1 Hab. induction A as [|l A' IH]; intros a1 Hab; cbn in Hab; [eauto|].
          destruct a1 as [|x a1]; cbn in Hab; injection Hab as -> Hab; [destruct HnA; left|]. apply (IH ltac:(set_solver) a1 Hab). }
        destruct (filter_index _ _ _ _ _ _ _ HB) as (a3 & b3 & c3 & Hto3).
        split; [right; rewrite E2, E8; by apply (no_shortcut_to tk a3 l1 b3 l2 c3)|].
        intros Hlv HN. exfalso. assert (fate z (t_to tk) v l2 <> LTrue) as Hf2.
        { assert (l2 ∈ B) as Hin by (rewrite HB; set_solver). apply elem_of_list_In, List.filter_In in Hin as [_ Hin].
          intros Heq. rewrite Heq in Hin. done. }
        destruct Hlv as [Hnil|(l & Hl & HVl)]; [rewrite Hnil in E9; by apply elem_of_nil in E9|].
        apply (g_from d G e2 l E7) in Hl as HlL. destruct HlL as [HlL Hlto].
        destruct (Hlor l HlL) as [Hin|[Hlf Hlo]].
        { assert (l = l2) as -> by (apply (to_target_inj tk); [done|done|done|congruence]). rewrite (HVin l2 Hin) in HVl. congruence. }
        rewrite HVout in HVl by done. destruct (iv_seen _ _ _ _ _ _ _ _ _ I l e2 E7 Hl HVl E12) as [u Hu].
        { intros HK. by apply (Hsep e2 HK). }
        rewrite C1 in HN. congruence.
      + eapply opairs_mono; [|apply I]. cbn beta. intros k1 k2 Hk1 Hk2 [H1 H2]. split; [destruct H1; [left; by apply Hlm|by right]|].
        intros Hlv HN. rewrite C1 in HN. apply Hlm, H2; [|done]. apply Hlb; [by apply (iv_U1 _ _ _ _ _ _ _ _ _ I)| |done].
        apply Hnes; [by apply (iv_U1 _ _ _ _ _ _ _ _ _ I)|by apply HKes].
      + intros e k He Hk. destruct (Hes1 e He) as (l & Hl & _ & Ht). destruct (Htg l e Hl Ht) as (H1 & H2 & H3 & H4 & H5 & H6). split.
        * right. intros Hab. apply (Hsep k Hk). by eapply rtc_transitive.
        * intros Hlv HN. rewrite C1 in HN. destruct (Hnew k Hk) as [u Hu]; [|congruence].
          apply Hlb; [by apply (iv_U1 _ _ _ _ _ _ _ _ _ I)| |done]. apply Hnes; [by apply (iv_U1 _ _ _ _ _ _ _ _ _ I)|by apply HKes].
    - (* the log *)
      pose proof (iv_told _ _ _ _ _ _ _ _ _ I) as T. rewrite Forall_forall in C10.
      assert (evaluations (put 0 t y' x' ev n s) = evaluations s) as Hevs.
      { apply (evaluations_eq _ _ ev); [done|]. intros i j ins it H. destruct (C10 _ H) as [[]|[?|[(l & z' & _ & ? & _)|[(l & _ & _ & _ & ?)|(m & b & ?)]]]]; done. }
      change (s_log (put 0 t y' x' ev n s)) with (ev ++ s_log s).
      split; change (s_log (put 0 t y' x' ev n s)) with (ev ++ s_log s).
      + intros j z' Hz' _ [H|H]%elem_of_app.
        * destruct (C10 _ H) as [[]|[[= -> ->]|[(l & z0 & _ & ? & _)|[(l & _ & _ & _ & ?)|(m & b & ?)]]]]; done.
        * destruct (decide (j = id)) as [->|Hj]; [rewrite HFid; f_equal; symmetry; by apply Hold|]. rewrite HFne by done.
          by apply (to_upd _ _ _ _ _ _ _ T); [|apply Hcj|].
      + intros j z' Hj. apply elem_of_app. destruct (decide (j = id)) as [->|Hjn]; [left; rewrite HFid in Hj; by injection Hj as <-|right].
        rewrite HFne in Hj by done. by apply (to_F _ _ _ _ _ _ _ T).
      + intros k z' [H|H]%elem_of_app.
        * destruct (C10 _ H) as [[]|[?|[(l & z0 & Hl & [= -> ->] & Hor)|[(l & _ & _ & _ & ?)|(m & b & ?)]]]]; try done.
          rewrite (HVin l Hl). destruct Hor as [->|[-> Hzn]]; [by left|]. unfold fate.
          destruct (decide (z = TSkipped)); [done|]. destruct (decide (z = TFailed)); [destruct (is_type _ _)|destruct (followed _ _ _)]; auto.
        * destruct (to_set _ _ _ _ _ _ _ T k z' H) as [?|[-> ?]]; [left; by apply HVm|right; split; [done|by apply HVm]].
      + intros k z' Hk. apply elem_of_app. destruct (decide (k ∈ l_id <$> t_to tk)) as [(l & -> & Hl)%elem_of_list_fmap|Hn].
        * left. rewrite (HVin l Hl) in Hk. injection Hk as <-. by apply C11.
        * right. rewrite HVout in Hk by done. by apply (to_V _ _ _ _ _ _ _ T).
      + intros k b [H|H]%elem_of_app.
        * destruct (C10 _ H) as [[]|[?|[(l & z0 & Hl & ? & Hor)|[(l & Hl & _ & _ & [= -> ->])|(m & ? & ?)]]]]; try done. by rewrite (HVin l Hl).
        * destruct (to_val _ _ _ _ _ _ _ T k b H) as [z0 Hz0]. exists z0. by apply HVm.
      + intros k z' Hk Hkz. destruct (decide (t_id k = id)) as [He|Hkn].
        * assert (k = tk) as -> by (by apply (g_task_inj d G)). fold id in Hkz. rewrite HFid in Hkz. injection Hkz as <-. exists v. split; [done|].
          intros Hzd l Hl Hty b. split; [|intros ->; apply elem_of_app; left; by apply C12]. intros [H|H]%elem_of_app.
          -- destruct (C10 _ H) as [[]|[?|[(l' & z0 & Hl' & ? & Hor)|[(l' & Hl' & _ & _ & [= He' ->])|(m & ? & ?)]]]]; try done. by rewrite He'.
          -- destruct (to_val _ _ _ _ _ _ _ T _ b H) as [z0 Hz0]. by rewrite HVn in Hz0.
        * rewrite HFne in Hkz by done. destruct (to_rule _ _ _ _ _ _ _ T k z' Hk Hkz) as (v0 & H1 & H2). exists v0. split; [intros l Hl; by apply HVm, H1|].
          intros Hzd l Hl Hty b. rewrite <- (H2 Hzd l Hl Hty b). rewrite elem_of_app. split; [|by right]. intros [H|H]; [|done]. exfalso.
          destruct (C10 _ H) as [[]|[?|[(l' & z0 & Hl' & ? & Hor)|[(l' & Hl' & _ & _ & [= He' ->])|(m & ? & ?)]]]]; try done.
          apply (g_to d G k l Hk) in Hl as [Hl1 Hl2]. destruct (Hto l' Hl') as [Hl1' Hl2'].
          rewrite (g_link_inj d G l l' Hl1 Hl1' He') in Hl2. congruence.
      + intros k z' Hk Hkz. destruct (decide (t_id k = id)) as [He|Hkn].
        * assert (k = tk) as -> by (by apply (g_task_inj d G)). fold id in Hkz. rewrite HFid in Hkz. injection Hkz as <-. rewrite Hlive.
          assert (live V' tk <-> live V tk) as ->; [|done]. split; [|apply Hlm]. apply Hlb; [done|]. intros l Hl Hlf. apply (g_from d G tk l Htk) in Hl as [Hl1 Hl2].
          apply (above_not_back d G AC l Hl1). rewrite Hl2, Hlf. apply rtc_refl.
        * rewrite HFne in Hkz by done. rewrite (to_live _ _ _ _ _ _ _ T k z' Hk Hkz).
          assert (live V' k <-> live V k) as ->; [|done]. split; [|apply Hlm]. apply Hlb; [done|]. intros l Hl Hlf. apply (g_from d G k l Hk) in Hl as [Hl1 Hl2].
          destruct (iv_down _ _ _ _ _ _ _ _ _ I l Hl1) as [z0 Hz0]; [rewrite Hl2; by rewrite Hkz|]. rewrite Hlf in Hz0. congruence.
      + rewrite Hevs. apply T.
      + intros i j H. rewrite Hevs in H. destruct (to_eval _ _ _ _ _ _ _ T i j H) as (-> & Hor). split; [done|].
        destruct (decide (j = id)) as [->|Hj].
        * rewrite HFid. destruct Hz as [->|[->| ->]]; [by right; left| |by right; right; left]. by destruct Hne.
        * rewrite HFne by done. destruct Hor as [Hc|[?|[?|(HN & u & x0 & H1 & H2 & H3)]]]; [by apply Hcj in Hj|by right; left|by right; right; left|].
          right; right; right. split; [done|]. exists u, x0. rewrite C1. split_and!; [done|by apply (Hkeep j)|done].
      + intros j Hc Hj. rewrite Hevs. destruct (decide (j = id)) as [->|Hjn].
        * rewrite HFid in Hj. apply Hcall; [done|]. intros ->. by destruct Hj.
        * rewrite HFne in Hj by done. by apply (to_call _ _ _ _ _ _ _ T).
      + intros j o Hc [H|H]%elem_of_app.
        { destruct (C10 _ H) as [[]|[?|[(l & z' & _ & ? & _)|[(l & _ & _ & _ & ?)|(m & b & ?)]]]]; done. }
        right. destruct (decide (j = id)) as [->|Hj]; [left; rewrite HFid; f_equal; by apply Hout|].
        rewrite HFne by done. destruct (to_out _ _ _ _ _ _ _ T j o Hc H) as [Hcr|[?|(HN & u & x0 & H1 & H2 & H3)]]; [by apply Hcj in Hj|by left|].
        right. split; [done|]. exists u, x0. rewrite C1. split_and!; [done|by apply (Hkeep j)|done].
      + intros j z' Hc Hj Hz'. destruct (decide (j = id)) as [->|Hjn].
        * rewrite HFid in Hj. injection Hj as <-. destruct (Hres Hc Hz') as [o Ho]. exists o. apply elem_of_app. by right.
        * rewrite HFne in Hj by done. destruct (to_res _ _ _ _ _ _ _ T j z' Hc Hj Hz') as [o Ho]. exists o. apply elem_of_app. by right.
  Qed.
End Course.
