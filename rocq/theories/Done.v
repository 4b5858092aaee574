(** What Done of a task does, exactly: which links it follows and in which order it hands on their
    targets (proofs; no Go counterpart). *)
From Coq Require Import Sorting.Sorted.
From Verif Require Export Ends.
Local Open Scope Z_scope.

(** ** Sorting *)

Section Sort.
  Context {A : Type}.
  Implicit Types (l : list (A * Z)).
  Local Definition at_ (c : Z) (l : list (A * Z)) : list (A * Z) := List.filter (fun e => (e.2 =? c)%Z) l.

  Lemma at_insert c e l : Sorted (fun a b => a.2 <= b.2) l ->
    at_ c (insert_entry e l) = (if (e.2 =? c)%Z then e :: at_ c l else at_ c l).
  Proof.
    induction l as [|e' l IH]; intros S; cbn [insert_entry at_ List.filter]; [done|].
    destruct (Z.leb_spec e.2 e'.2).
    - cbn [List.filter]. by destruct (e.2 =? c).
    - cbn [List.filter]. fold (at_ c (insert_entry e l)). fold (at_ c l). rewrite IH by by inversion S.
      destruct (Z.eqb_spec e'.2 c), (Z.eqb_spec e.2 c); try done. lia.
  Qed.
  Lemma sorted_insert e l : Sorted (fun a b => a.2 <= b.2) l -> Sorted (fun a b => a.2 <= b.2) (insert_entry e l).
  Proof.
    induction l as [|e' l IH]; intros S; cbn [insert_entry]; [by repeat constructor|].
    destruct (Z.leb_spec e.2 e'.2).
    - constructor; [done|]. by constructor.
    - inversion S as [|? ? S1 S2]; subst. constructor; [by apply IH|].
      destruct l as [|e2 l]; cbn [insert_entry]; [constructor; lia|].
      destruct (e.2 <=? e2.2); constructor; [lia|]. by inversion S2.
  Qed.
  Lemma sorted_sort l : Sorted (fun a b => a.2 <= b.2) (sort_entries l).
  Proof. induction l as [|e l IH]; cbn [sort_entries]; [constructor|]. by apply sorted_insert. Qed.
  Lemma at_sort c l : at_ c (sort_entries l) = at_ c l.
  Proof.
    induction l as [|e l IH]; cbn [sort_entries]; [done|]. rewrite at_insert by apply sorted_sort. rewrite IH.
    cbn [at_ List.filter]. done.
  Qed.
  Lemma sorted_groups l : Sorted (fun a b => a.2 <= b.2) l -> Forall (fun e => 0 <= e.2 <= 4) l ->
    l = at_ 0 l ++ at_ 1 l ++ at_ 2 l ++ at_ 3 l ++ at_ 4 l.
  Proof.
    induction l as [|e l IH]; intros S F; [done|]. inversion F as [|? ? F1 F2]; subst.
    assert (StronglySorted (fun a b => a.2 <= b.2) (e :: l)) as SS.
    { apply Sorted_StronglySorted; [|done]. intros a b c. cbn. lia. }
    inversion SS as [|? ? _ SA]; subst. inversion S as [|? ? S1 S2]; subst. specialize (IH S1 F2).
    assert (forall c, c < e.2 -> at_ c l = []) as Hlow.
    { intros c Hc. clear -SA Hc. induction SA as [|a l Ha _ IH]; [done|]. cbn [at_ List.filter].
      destruct (Z.eqb_spec a.2 c); [lia|]. done. }
    assert (e.2 = 0 \/ e.2 = 1 \/ e.2 = 2 \/ e.2 = 3 \/ e.2 = 4) as Hc by lia.
    cbn [at_ List.filter]. fold (at_ 0 l) (at_ 1 l) (at_ 2 l) (at_ 3 l) (at_ 4 l).
    destruct Hc as [Hc|[Hc|[Hc|[Hc|Hc]]]]; rewrite Hc; cbn -[at_]; rewrite ?(Hlow 0), ?(Hlow 1), ?(Hlow 2), ?(Hlow 3) by lia;
      rewrite ?(Hlow 0), ?(Hlow 1), ?(Hlow 2), ?(Hlow 3) in IH by lia; cbn -[at_] in *; by rewrite IH at 1.
  Qed.
  Lemma sort_groups l : Forall (fun e => 0 <= e.2 <= 4) l ->
    sort_entries l = at_ 0 l ++ at_ 1 l ++ at_ 2 l ++ at_ 3 l ++ at_ 4 l.
  Proof.
    intros F. rewrite (sorted_groups (sort_entries l)) at 1; [by rewrite !at_sort|apply sorted_sort|].
    induction F as [|e l He _ IH]; cbn [sort_entries]; [done|]. clear -He IH. revert IH. generalize (sort_entries l). clear l.
    induction 1 as [|e' l' H1 H2 IH]; cbn [insert_entry]; [by constructor|]. destruct (_ <=? _); [|by apply Forall_cons].
    apply Forall_cons; split; [done|]. by apply Forall_cons.
  Qed.
End Sort.

Definition coded (E : env) (fol : link -> bool) (l : link) : link * Z := (l, if fol l then enter_code E l else 4).
Lemma sort_fan_out E fol ls : (forall l, l ∈ ls -> l_type l = LtError -> fol l = false) ->
  fst <$> sort_entries (coded E fol <$> ls) = fan_out (e_prio E) ls fol.
Proof.
  intros He. rewrite sort_groups.
  2:{ apply Forall_fmap, Forall_forall. intros l _. cbn. unfold enter_code. destruct (fol l), (l_type l), (e_prio E); lia. }
  rewrite !fmap_app.
  assert (forall c P, (forall l, l ∈ ls -> P l = ((coded E fol l).2 =? c)) ->
    fst <$> at_ c (coded E fol <$> ls) = List.filter P ls) as H.
  { clear. intros c P HP. induction ls as [|l ls IH]; [done|]. cbn [fmap list_fmap at_ List.filter].
    rewrite (HP l) by set_solver. fold (at_ c (coded E fol <$> ls)).
    rewrite <- IH by (intros; apply HP; set_solver). by destruct (_ =? c). }
  unfold fan_out. destruct (e_prio E) eqn:Hp; rewrite <- !app_assoc; repeat f_equal; apply H; intros l Hl; cbn;
    unfold enter_code, is_type; rewrite Hp; specialize (He l Hl); destruct (l_type l), (fol l); try done; by discriminate He.
Qed.

(** ** The loop over the outgoing links *)

Definition pre (v : nat -> bool) (l : link) : bool :=
  match l_type l with LtDependency | LtLabel => true | LtExpression => v (l_id l) | _ => false end.
Definition done_ev (i : nat) (p : list link) (v : nat -> bool) (fol : link -> bool) (e : event) : Prop :=
  side_ev i e \/
  (exists l z, l ∈ p /\ e = EvLinkSet i (l_id l) z /\ (z = LFalse \/ z = LTrue /\ fol l = true)) \/
  (exists l, l ∈ p /\ l_type l = LtExpression /\ e = EvLinkEval i (l_id l) (v (l_id l))).
Record done_inv (E : env) (i : nat) (y0 : inst) (p : list link) (a : done_acc) (y : inst) (v : nat -> bool) (ev : list event) : Prop := {
  di_es : da_es a = coded E (pre v) <$> p;
  di_has : da_has a = existsb (is_type LtExpression) p;
  di_fol : da_fol a = existsb (fun l => is_type LtExpression l && v (l_id l)) p;
  di_oth : da_oth a = last (List.filter (is_type LtExprOtherwise) p);
  di_in : forall l, l ∈ p -> i_links y !! l_id l = Some (if pre v l then LTrue else LFalse);
  di_out : forall k, k ∉ l_id <$> p -> i_links y !! k = i_links y0 !! k;
  di_y : y = set_i_links (i_links y) y0;
  di_ev : Forall (done_ev i p v (pre v)) ev;
  di_val : forall l, l ∈ p -> l_type l = LtExpression -> EvLinkEval i (l_id l) (v (l_id l)) ∈ ev;
  di_set : forall l, l ∈ p -> EvLinkSet i (l_id l) (if pre v l then LTrue else LFalse) ∈ ev;
}.

Lemma filter_snoc {A} (P : A -> bool) l a : List.filter P (l ++ [a]) = List.filter P l ++ (if P a then [a] else []).
Proof. rewrite List.filter_app. cbn. by destruct (P a). Qed.
Lemma existsb_snoc {A} (P : A -> bool) l a : existsb P (l ++ [a]) = existsb P l || P a.
Proof. rewrite existsb_app. cbn. by rewrite orb_false_r. Qed.
Lemma existsb_ext_in {A} (P Q : A -> bool) l : (forall a, a ∈ l -> P a = Q a) -> existsb P l = existsb Q l.
Proof.
  induction l as [|a l IH]; intros H; [done|]. cbn. rewrite H by set_solver. f_equal. apply IH. set_solver.
Qed.

(** Turning links into their targets. *)
Lemma resolve_ok d es : (forall p, p ∈ es -> exists tk, link_target d p.1 = Some tk) ->
  exists r, resolve_entries d es = Some r /\ Forall2 (fun e l => link_target d l = Some e.1) r es.*1.
Proof.
  induction es as [|[l c] es IH]; intros H; [exists []; by split; [|constructor]|]. cbn [resolve_entries].
  destruct (H (l, c)) as [tk Htk]; [left|]. cbn in Htk. rewrite Htk.
  destruct IH as (r & -> & F); [intros p Hp; apply H; by right|]. eexists. split; [done|]. by constructor.
Qed.

Lemma made_out ls m k : k ∉ l_id <$> ls -> made ls m !! k = m !! k.
Proof.
  revert m. induction ls as [|l ls IH]; intros m Hk; [done|]. change (made (l :: ls) m) with (made ls (match m !! l_id l with Some _ => m | None => <[l_id l := LUnset]> m end)).
  rewrite fmap_cons in Hk. rewrite (IH _) by set_solver. destruct (m !! l_id l); [done|]. by rewrite lookup_insert_ne by set_solver.
Qed.

Lemma followed_pre ls v l : l_type l <> LtExprOtherwise -> followed ls v l = pre v l.
Proof. unfold followed, pre. by destruct (l_type l). Qed.
Lemma negb_existsb {A} (P : A -> bool) l : negb (existsb P l) = forallb (fun a => negb (P a)) l.
Proof. induction l as [|a l IH]; [done|]. cbn. rewrite <- IH. by destruct (P a). Qed.

Section Done.
  Local Set Default Proof Using "Type*".
  Context (E : env) (i t : nat) (C : cov_ok E) (L : links_ok E).
  Notation loc := (loc i t).

  Lemma loc_eval_link l y x (Q : err + bool -> inst -> tinst -> list event -> Prop) :
    ti_inst x = i -> (forall b, Q (inr b) y x [EvLinkEval i (l_id l) b]) -> loc (eval_link E t l) y x Q.
  Proof.
    intros Hi HQ. unfold eval_link. apply loc_bti. rewrite Hi. destruct (l_expr l).
    - apply loc_bind, loc_ext. intros n v. destruct (L n v l) as [b ->]. apply loc_bind, loc_log, loc_ret. cbn. apply HQ.
    - apply loc_bind, loc_log, loc_ret. apply HQ.
  Qed.

  Ltac fa := repeat (apply Forall_app; split); repeat (apply Forall_cons; split);
    first [by apply List.Forall_nil | by auto 6 | eapply Forall_impl; [eassumption|]; by left | idtac].

  (** One more link, decided as [b]; [v] gets the value for expression links. *)
  Lemma done_inv_snoc y0 p a y v ev l v' a' ev' b :
    done_inv E i y0 p a y v ev -> l_id l ∉ l_id <$> p ->
    (forall k, k <> l_id l -> v' k = v k) -> b = pre v' l ->
    a' = mk_da (da_es a ++ [(l, if b then enter_code E l else 4)])
      (da_has a || is_type LtExpression l) (da_fol a || (is_type LtExpression l && b))
      (if is_type LtExprOtherwise l then Some l else da_oth a) ->
    Forall (fun e => side_ev i e \/ e = EvLinkSet i (l_id l) LFalse \/ (b = true /\ e = EvLinkSet i (l_id l) LTrue) \/
      (l_type l = LtExpression /\ e = EvLinkEval i (l_id l) (v' (l_id l)))) ev' ->
    (l_type l = LtExpression -> EvLinkEval i (l_id l) (v' (l_id l)) ∈ ev') ->
    EvLinkSet i (l_id l) (if b then LTrue else LFalse) ∈ ev' ->
    done_inv E i y0 (p ++ [l]) a' (lmap (<[l_id l := if b then LTrue else LFalse]>) y) v' (ev' ++ ev).
  Proof.
    intros [H1 H2 H3 H4 H5 H6 H7 H8 H9 H10] Hn Hv Hb -> He Hx Hset.
    assert (forall l', l' ∈ p -> v' (l_id l') = v (l_id l')) as Hv'.
    { intros l' Hl'. apply Hv. intros Heq. apply Hn. rewrite <- Heq. by apply elem_of_list_fmap_1. }
    assert (forall l', l' ∈ p -> pre v' l' = pre v l') as Hp.
    { intros l' Hl'. unfold pre. destruct (l_type l'); try done. by apply Hv'. }
    split; cbn.
    - rewrite fmap_app, H1. cbn. unfold coded at 3. rewrite <- Hb. f_equal. apply list_fmap_ext. intros k l' Hl'.
      apply elem_of_list_lookup_2 in Hl'. unfold coded. by rewrite Hp.
    - by rewrite existsb_snoc, H2.
    - rewrite existsb_snoc, H3. f_equal.
      + apply existsb_ext_in. intros l' Hl'. by rewrite Hv'.
      + unfold is_type. case_bool_decide as Ht; [|done]. cbn. rewrite Hb. unfold pre. by rewrite Ht.
    - rewrite filter_snoc, H4. destruct (is_type LtExprOtherwise l); [by rewrite last_snoc|by rewrite app_nil_r].
    - intros l' [Hl'|Hl'%elem_of_list_singleton]%elem_of_app.
      + rewrite lookup_insert_ne; [by rewrite H5, Hp|]. intros Heq. apply Hn. rewrite Heq. by apply elem_of_list_fmap_1.
      + subst l'. rewrite lookup_insert, Hb. done.
    - intros k Hk. rewrite fmap_app in Hk. cbn in Hk. rewrite lookup_insert_ne by set_solver. apply H6. set_solver.
    - unfold lmap. rewrite H7. done.
    - apply Forall_app. split.
      + eapply Forall_impl; [exact He|]. intros e [Hs|[Hs|[[Hb1 Hs]|[Ht Hs]]]]; [by left|right; left|right; left|right; right].
        * exists l, LFalse. split_and!; [set_solver|done|by left].
        * exists l, LTrue. split_and!; [set_solver|done|]. right. by rewrite <- Hb.
        * exists l. split_and!; [set_solver|done|done].
      + eapply Forall_impl; [exact H8|]. intros e [Hs|[(l' & z & Hl' & Hs & Hz)|(l' & Hl' & Ht & Hs)]]; [by left|right; left|right; right].
        * exists l', z. split_and!; [set_solver|done|]. by rewrite Hp.
        * exists l'. split_and!; [set_solver|done|]. by rewrite Hv'.
    - intros l' [Hl'|Hl'%elem_of_list_singleton]%elem_of_app Ht; [|subst l'; set_solver].
      rewrite Hv' by done. apply elem_of_app. right. by apply H9.
    - intros l' [Hl'|Hl'%elem_of_list_singleton]%elem_of_app; apply elem_of_app; [right; rewrite Hp by done; by apply H10|].
      left. subst l'. by rewrite <- Hb.
  Qed.

  Lemma loc_done_link y0 p a y v ev l x :
    done_inv E i y0 p a y v ev -> l_id l ∉ l_id <$> p -> ti_inst x = i ->
    loc (done_link E t i l a) y x (fun r y' x' ev' => x' = x /\ exists a' v', r = inr a' /\
      done_inv E i y0 (p ++ [l]) a' y' v' (ev' ++ ev)).
  Proof.
    intros I Hn Hi. unfold done_link. apply loc_bind, loc_set_link; [done|]. intros e1 F1.
    assert (forall e, Forall (side_ev i) e -> Forall (fun e => side_ev i e \/ e = EvLinkSet i (l_id l) LFalse \/ (pre v l = true /\ e = EvLinkSet i (l_id l) LTrue) \/
      (l_type l = LtExpression /\ e = EvLinkEval i (l_id l) (v (l_id l)))) e) as FS.
    { intros e F. eapply Forall_impl; [exact F|]. by left. }
    assert (forall b f (m : gmap nat Z), lmap (<[l_id l := b]>) (lmap (<[l_id l := f]>) y) = lmap (<[l_id l := b]>) y) as Hll.
    { intros b f m. unfold lmap. cbn. by rewrite insert_insert. }
    destruct (l_type l) eqn:Ht.
    - (* dependency *) apply loc_bind, loc_set_link; [done|]. intros e2 F2. apply loc_ret. cbn [app].
      rewrite Hll by exact ∅. split; [done|]. eexists _, v. split; [done|].
      apply (done_inv_snoc _ _ _ _ _ _ _ _ _ _ true I Hn); [done|unfold pre; by rewrite Ht| | |by rewrite Ht|set_solver].
      + unfold is_type. rewrite Ht. cbn. by rewrite !orb_false_r.
      + fa.
    - (* expression *) apply loc_bind, loc_eval_link; [done|]. intros b. set (v' := fun k => if (k =? l_id l)%nat then b else v k).
      assert (v' (l_id l) = b) as Hvb by (unfold v'; by rewrite Nat.eqb_refl).
      assert (forall k, k <> l_id l -> v' k = v k) as Hvo.
      { intros k Hk. unfold v'. by destruct (Nat.eqb_spec k (l_id l)). }
      assert (pre v' l = b) as Hpb by (unfold pre; by rewrite Ht).
      destruct b.
      + apply loc_bind, loc_set_link; [done|]. intros e2 F2. apply loc_ret. cbn [app]. rewrite Hll by exact ∅. split; [done|].
        eexists _, v'. split; [done|].
        apply (done_inv_snoc _ _ _ _ _ _ _ _ _ _ true I Hn); [done|done| | | |set_solver].
        * unfold is_type. rewrite Ht. cbn. by rewrite !orb_true_r.
        * rewrite Hvb. fa.
        * rewrite Hvb. set_solver.
      + apply loc_ret. split; [done|]. eexists _, v'. split; [done|].
        apply (done_inv_snoc _ _ _ _ _ _ _ _ _ _ false I Hn); [done|done| | | |set_solver].
        * unfold is_type. rewrite Ht. cbn. by rewrite !orb_true_r, orb_false_r.
        * rewrite Hvb. fa.
        * rewrite Hvb. set_solver.
    - (* label *) apply loc_bind, loc_set_link; [done|]. intros e2 F2. apply loc_ret. cbn [app].
      rewrite Hll by exact ∅. split; [done|]. eexists _, v. split; [done|].
      apply (done_inv_snoc _ _ _ _ _ _ _ _ _ _ true I Hn); [done|unfold pre; by rewrite Ht| | |by rewrite Ht|set_solver].
      + unfold is_type. rewrite Ht. cbn. by rewrite !orb_false_r.
      + fa.
    - (* error *) apply loc_ret. split; [done|]. eexists _, v. split; [done|].
      apply (done_inv_snoc _ _ _ _ _ _ _ _ _ _ false I Hn); [done|unfold pre; by rewrite Ht| | |by rewrite Ht|set_solver].
      + unfold is_type. rewrite Ht. cbn. by rewrite !orb_false_r.
      + fa.
    - (* otherwise *) apply loc_ret. split; [done|]. eexists _, v. split; [done|].
      apply (done_inv_snoc _ _ _ _ _ _ _ _ _ _ false I Hn); [done|unfold pre; by rewrite Ht| | |by rewrite Ht|set_solver].
      + unfold is_type. rewrite Ht. cbn. by rewrite !orb_false_r.
      + fa.
  Qed.

  Lemma loc_done_links y0 r p a y v ev x :
    done_inv E i y0 p a y v ev -> NoDup (l_id <$> (p ++ r)) -> ti_inst x = i ->
    loc (done_links E t i r a) y x (fun o y' x' ev' => x' = x /\ exists a' v', o = inr a' /\
      done_inv E i y0 (p ++ r) a' y' v' (ev' ++ ev)).
  Proof.
    revert p a y v ev. induction r as [|l r IH]; intros p a y v ev I N Hi; cbn [done_links].
    - apply loc_ret. split; [done|]. exists a, v. by rewrite app_nil_r.
    - apply loc_bind. eapply loc_mono; [apply (loc_done_link _ _ _ _ _ _ _ _ I)|].
      + rewrite fmap_app in N. apply NoDup_app in N as (_ & N & _). intros Hp. apply (N _ Hp). cbn. set_solver.
      + done.
      + intros o y' x' ev1 (-> & a' & v' & -> & I'). eapply loc_mono; [apply (IH (p ++ [l]) a' y' v' (ev1 ++ ev))|]; [done|by rewrite <- app_assoc|done|].
        intros o' y2 x2 ev2 (-> & a2 & v2 & -> & I2). split; [done|]. exists a2, v2. split; [done|].
        by rewrite <- !app_assoc in *.
  Qed.

  (** What Done does with a task that has outgoing links. *)
  Record done_post (y : inst) (ls : list link) (es : list entry) (y' : inst) (v : nat -> bool) (ev : list event) : Prop := {
    dp_es : Forall2 (fun e l => link_target (i_def y) l = Some e.1) es (fan_out (e_prio E) ls (followed ls v));
    dp_in : forall l, l ∈ ls -> i_links y' !! l_id l = Some (if followed ls v l then LTrue else LFalse);
    dp_out : forall k, k ∉ l_id <$> ls -> i_links y' !! k = i_links y !! k;
    dp_y : y' = set_i_links (i_links y') y;
    dp_val : forall l, l ∈ ls -> l_type l = LtExpression -> EvLinkEval i (l_id l) (v (l_id l)) ∈ ev;
    dp_ev : Forall (fun e => done_ev i ls v (followed ls v) e) ev;
    dp_set : forall l, l ∈ ls -> EvLinkSet i (l_id l) (if followed ls v l then LTrue else LFalse) ∈ ev;
  }.

  Lemma loc_done y x :
    ti_inst x = i -> t_to (ti_task x) <> [] -> NoDup (l_id <$> t_to (ti_task x)) ->
    (forall l, l ∈ t_to (ti_task x) -> exists tk, link_target (i_def y) l = Some tk) ->
    loc (beh_done E t) y x (fun r y' x' ev => x' = set_ti_status TDone x /\
      exists es v ev0, r = inr (false, es) /\ done_post y (t_to (ti_task x)) es y' v ev0 /\
        exists e1 e2, ev = e1 ++ EvTaskUpd i (t_id (ti_task x)) TDone :: e2 /\ ev0 = e1 ++ e2 /\ Forall (side_ev i) e2).
  Proof.
    intros Hi Hne N Ht. unfold beh_done. apply loc_bind, loc_to_links; [done|]. intros ev0 F0.
    apply loc_bind, loc_set_task_status. apply loc_bti. cbv zeta. cbn [ti_inst set_ti_status]. rewrite Hi.
    set (ls := t_to (ti_task x)) in *. destruct ls as [|l0 ls0] eqn:Hls; [done|]. rewrite <- Hls in *. clear Hne Hls l0 ls0.
    set (y0 := lmap (made ls) y). apply loc_bind. eapply loc_mono.
    { apply (loc_done_links y0 ls [] _ y0 (fun _ => false) []); [|done|done]. split; try done; try (by intros l ?%elem_of_nil). }
    intros o y1 x1 ev1 (-> & a & v & -> & I). rewrite app_nil_r in I. cbn [app] in I. destruct I as [H1 H2 H3 H4 H5 H6 H7 H8 H9 H10].
    assert (i_def y1 = i_def y) as Hd by (by rewrite H7).
    assert (forall es, es.*1 = fan_out (e_prio E) ls (followed ls v) ->
      exists r, resolve_entries (i_def y) es = Some r /\
        Forall2 (fun e l => link_target (i_def y) l = Some e.1) r (fan_out (e_prio E) ls (followed ls v))) as Hres.
    { intros es Hes. rewrite <- Hes. apply resolve_ok. intros p Hp. apply Ht. apply (elem_of_list_fmap_1 fst) in Hp.
      rewrite Hes in Hp. revert Hp. unfold fan_out. rewrite !elem_of_list_In. intros Hp.
      assert (forall P, List.In p.1 (List.filter P ls) -> List.In p.1 ls) as Hf by (intros P; by rewrite List.filter_In; intros []).
      destruct (e_prio E); rewrite !List.in_app_iff in Hp; naive_solver. }
    assert (forall k, k ∉ l_id <$> ls -> i_links y1 !! k = i_links y !! k) as Hout.
    { intros k Hk. rewrite H6 by done. unfold y0. cbn. by apply made_out. }
    assert (forall l, followed ls v l = (if is_type LtExprOtherwise l then
        da_has a && negb (da_fol a) && match da_oth a with Some l' => (l_id l' =? l_id l)%nat | None => false end else pre v l)) as Hfol.
    { intros l. unfold is_type. case_bool_decide as Hty; [|by apply followed_pre]. unfold followed. rewrite Hty.
      by rewrite H2, H3, H4, negb_existsb. }
    apply loc_bind.
    (* continue with the entries and the final link table *)
    assert (forall y2 es ev2, es.*1 = fan_out (e_prio E) ls (followed ls v) -> i_def y2 = i_def y ->
      (forall l, l ∈ ls -> i_links y2 !! l_id l = Some (if followed ls v l then LTrue else LFalse)) ->
      (forall k, k ∉ l_id <$> ls -> i_links y2 !! k = i_links y !! k) -> y2 = set_i_links (i_links y2) y ->
      Forall (done_ev i ls v (followed ls v)) ev2 ->
      (forall l, l ∈ ls -> EvLinkSet i (l_id l) (if followed ls v l then LTrue else LFalse) ∈ ev2 ++ ev1) ->
      loc (bind (entries_of i es) (fun es0 => ret (inr (false, es0) : err + bool * list entry))) y2 (set_ti_status TDone x) (fun r y' x' ev => x' = set_ti_status TDone x /\
      exists es v ev3, r = inr (false, es) /\ done_post y ls es y' v ev3 /\
        exists e1 e2, (((ev ++ ev2) ++ ev1) ++ [EvTaskUpd i (t_id (ti_task x)) TDone]) ++ ev0 = e1 ++ EvTaskUpd i (t_id (ti_task x)) TDone :: e2 /\
          ev3 = e1 ++ e2 /\ Forall (side_ev i) e2)) as Hend.
    { intros y2 es ev2 Hes Hd2 Hin Hou Hy2 Hev Hset. destruct (Hres es Hes) as (r & Hr & F).
      apply loc_bind. unfold entries_of. apply loc_binst. rewrite Hd2, Hr. apply loc_ret, loc_ret. split; [done|].
      exists r, v, ((ev2 ++ ev1) ++ ev0). split; [done|]. split.
      - split; try done.
        + intros l Hl Hty. specialize (H9 l Hl Hty). rewrite !elem_of_app. auto.
        + repeat (apply Forall_app; split); [done| |].
          * eapply Forall_impl; [exact H8|]. intros e [Hs|[(l' & z & Hl' & Hs & Hz)|Hs]]; [by left|right; left|by right; right].
            exists l', z. split_and!; [done|done|]. destruct Hz as [?|[-> Hz]]; [by left|right]. split; [done|].
            rewrite Hfol. unfold is_type. case_bool_decide as Hty; [|done]. unfold pre in Hz. by rewrite Hty in Hz.
          * eapply Forall_impl; [exact F0|]. by left.
        + intros l Hl. rewrite elem_of_app. left. by apply Hset.
      - exists (ev2 ++ ev1), ev0. cbn [app]. rewrite <- !app_assoc. cbn [app]. split_and!; [done|done|done]. }
    assert (coded E (followed ls v) <$> ls = da_es a ->
      fst <$> sort_entries (da_es a) = fan_out (e_prio E) ls (followed ls v)) as Hsame.
    { intros <-. apply sort_fan_out. intros l _ Hty. unfold followed. by rewrite Hty. }
    assert (forall (b : bool), b = false ->
      (forall l, l ∈ ls -> l_type l = LtExprOtherwise -> followed ls v l = b) ->
      coded E (followed ls v) <$> ls = da_es a /\
      (forall l, l ∈ ls -> i_links y1 !! l_id l = Some (if followed ls v l then LTrue else LFalse)) /\
      (forall l, l ∈ ls -> EvLinkSet i (l_id l) (if followed ls v l then LTrue else LFalse) ∈ ev1)) as Hno.
    { intros b -> Hb. assert (forall l, l ∈ ls -> followed ls v l = pre v l) as Heq.
      { intros l Hl. destruct (decide (l_type l = LtExprOtherwise)) as [Hty|Hty]; [|by apply followed_pre].
        rewrite (Hb l Hl Hty). unfold pre. by rewrite Hty. }
      split_and!; [|intros l Hl; by rewrite H5, Heq|intros l Hl; rewrite Heq by done; by apply H10]. rewrite H1. apply list_fmap_ext. intros k l Hk. apply elem_of_list_lookup_2 in Hk.
      unfold coded. by rewrite Heq. }
    assert (y1 = set_i_links (i_links y1) y) as Hy1 by (rewrite H7; by unfold y0).
    destruct (da_oth a) as [lo|] eqn:Ho.
    - destruct (da_has a && negb (da_fol a)) eqn:Hc.
      + (* the otherwise link is followed *)
        symmetry in H4. assert (lo ∈ ls /\ l_type lo = LtExprOtherwise) as [Hlo Hty].
        { apply last_Some_elem_of in H4. rewrite elem_of_list_In, List.filter_In, <- elem_of_list_In in H4.
          destruct H4 as [H4 H]. split; [done|]. by apply bool_decide_eq_true in H. }
        assert (forall l, l ∈ ls -> l_id l = l_id lo -> l = lo) as Hinj.
        { intros l Hl Hid. apply elem_of_list_lookup in Hl as [k Hk], Hlo as [k' Hk']. assert (k = k') as <-; [|congruence].
          eapply NoDup_lookup; [exact N|by rewrite list_lookup_fmap, Hk|by rewrite list_lookup_fmap, Hk', Hid]. }
        apply loc_bind, loc_set_link; [done|]. intros e2 F2. apply loc_ret. cbn [app].
        assert (forall l, l ∈ ls -> followed ls v l = if (l_id l =? l_id lo)%nat then true else pre v l) as Hfo.
        { intros l Hl. rewrite Hfol. cbn. rewrite Nat.eqb_sym. unfold is_type. case_bool_decide as Hty'.
          - destruct (Nat.eqb_spec (l_id l) (l_id lo)); [done|]. unfold pre. by rewrite Hty'.
          - destruct (Nat.eqb_spec (l_id l) (l_id lo)) as [Hid|]; [|done]. apply Hinj in Hid; [|done]. by subst. }
        eapply loc_mono; [apply (Hend _ _ (e2 ++ [EvLinkSet i (l_id lo) LTrue]))|].
        * rewrite H1, <- list_fmap_compose.
          rewrite <- (sort_fan_out E (followed ls v) ls) by (intros l _ Hty'; unfold followed; by rewrite Hty').
          f_equal. f_equal. apply list_fmap_ext. intros k l Hk. apply elem_of_list_lookup_2 in Hk. cbn. unfold coded.
          rewrite Hfo by done. destruct (Nat.eqb_spec (l_id l) (l_id lo)) as [Hid|]; [|done]. apply Hinj in Hid; [|done]. by subst.
        * done.
        * intros l Hl. cbn. rewrite Hfo by done. destruct (Nat.eqb_spec (l_id l) (l_id lo)) as [Hid|Hid].
          -- rewrite Hid. apply lookup_insert.
          -- rewrite lookup_insert_ne by done. by apply H5.
        * intros k Hk. cbn. rewrite lookup_insert_ne; [by apply Hout|]. intros <-. apply Hk. by apply elem_of_list_fmap_1.
        * unfold lmap. rewrite Hy1. done.
        * apply Forall_app. split; [eapply Forall_impl; [exact F2|]; by left|]. constructor; [|done]. right. left.
          exists lo, LTrue. split_and!; [done|done|]. right. split; [done|]. rewrite Hfo by done. by rewrite Nat.eqb_refl.
        * intros l Hl. rewrite Hfo by done. specialize (H10 l Hl). destruct (Nat.eqb_spec (l_id l) (l_id lo)) as [->|]; set_solver.
        * intros r y' x' ev H. cbn [app] in *. rewrite ?app_nil_r in *. rewrite <- !app_assoc in *. exact H.
      + destruct (Hno false eq_refl) as (He & Hl & Hset); [intros l Hl Hty; rewrite Hfol; unfold is_type; by rewrite bool_decide_true|].
        apply loc_ret. eapply loc_mono; [apply (Hend y1 (sort_entries (da_es a)) [])|]; [by apply Hsame|done|done|done|done|constructor|done|].
        intros r y' x' ev H. cbn [app] in *. rewrite ?app_nil_r in *. rewrite <- !app_assoc in *. exact H.
    - destruct (Hno false eq_refl) as (He & Hl & Hset); [intros l Hl Hty; rewrite Hfol; unfold is_type; rewrite bool_decide_true by done; by rewrite andb_false_r|].
      apply loc_ret. eapply loc_mono; [apply (Hend y1 (sort_entries (da_es a)) [])|]; [by apply Hsame|done|done|done|done|constructor|done|].
      intros r y' x' ev H. cbn [app] in *. rewrite ?app_nil_r in *. rewrite <- !app_assoc in *. exact H.
  Qed.

  (** A task without outgoing links. *)
  Lemma loc_done_end y x :
    ti_inst x = i -> t_to (ti_task x) = [] ->
    loc (beh_done E t) y x (fun r y' x' ev => x' = set_ti_status TDone x /\ y' = y /\ r = inr (true, []) /\
      exists e2, ev = EvTaskUpd i (t_id (ti_task x)) TDone :: e2 /\ Forall (side_ev i) e2).
  Proof.
    intros Hi Ht. unfold beh_done. apply loc_bind, loc_to_links; [done|]. intros ev0 F0. rewrite Ht.
    apply loc_bind, loc_set_task_status. apply loc_bti. cbv zeta. apply loc_ret. rewrite lmap_id by done. rewrite Hi. split_and!; [done..|].
    exists ev0. done.
  Qed.
End Done.
