(** Snapshots made of recorded steps (proofs; no Go counterpart). *)
From Verif Require Export Replay.
Local Open Scope Z_scope.

Lemma last_nonzero_snoc zs z : last_nonzero (zs ++ [z]) = if decide (z = 0) then last_nonzero zs else z.
Proof.
  unfold last_nonzero. rewrite foldr_app. simpl. case_decide as H; [subst; done|].
  induction zs as [|z' zs IH]; simpl; [done|]. rewrite IH. by rewrite decide_False.
Qed.

Definition fill (z0 : option Z) (z : Z) : option Z :=
  match z0 with None => Some z | Some z0 => Some (if decide (z0 = 0) then z else z0) end.
Lemma update_entry_lookup `{Countable K} (m : gmap K Z) id z k :
  update_entry m id z !! k = if decide (id = k) then fill (m !! k) z else m !! k.
Proof.
  unfold update_entry, fill. case_decide as Hk.
  - subst. destruct (m !! k) as [z0|] eqn:E; [|by rewrite lookup_insert]. case_decide; [by rewrite lookup_insert|done].
  - destruct (m !! id); [case_decide|]; by rewrite ?lookup_insert_ne.
Qed.
Lemma update_entries `{Countable K} (l : list (K * (chg * Z))) (m : gmap K Z) k :
  NoDup l.*1 ->
  foldr (fun x m => update_entry m x.1 x.2.2) m l !! k =
    match (list_to_map l : gmap K (chg * Z)) !! k with Some c => fill (m !! k) c.2 | None => m !! k end.
Proof.
  induction l as [|[k' [c z]] l IH]; intros Hnd; simpl; [by rewrite lookup_empty|].
  apply NoDup_cons in Hnd as [Hn Hnd]. rewrite update_entry_lookup. simpl. rewrite (IH Hnd). case_decide as Hk.
  - subst. rewrite lookup_insert. simpl in Hn. by rewrite (not_elem_of_list_to_map_1 l k Hn).
  - by rewrite lookup_insert_ne.
Qed.
Lemma update_map `{Countable K} (c : gmap K (chg * Z)) (m : gmap K Z) k :
  foldr (fun x m => update_entry m x.1 x.2.2) m (map_to_list c) !! k =
    match c !! k with Some x => fill (m !! k) x.2 | None => m !! k end.
Proof. rewrite update_entries by apply NoDup_fst_map_to_list. by rewrite list_to_map_to_list. Qed.

Lemma reported_cons z zs : reported (z :: zs) = fill (reported zs) z.
Proof. destruct zs; simpl; [done|]. done. Qed.

Section Orders.
  Local Set Default Proof Using "Type*".
  Context (fo : gmap nat flow_chg -> list flow_chg) (qo : gmap nat queue_chg -> list (nat * queue_chg)).
  Context (Hfo : forall m, fo m ≡ₚ (map_to_list m).*2).

  Lemma snap_base_eq ps : main_only ps ->
    (steps_to_snapshot fo qo ps).(sn_base) = foldr (fun c b => update_flow b c) (mk_sb "" 0 ∅ ∅ ∅) (main_changes ps).
  Proof.
    intros Hm. unfold steps_to_snapshot. simpl.
    match goal with |- (foldr _ (?b, ?q) ps).1 = _ => generalize q end. intros q.
    induction ps as [|p ps IH]; [done|].
    assert (main_only ps) as Hm' by (intros p' i c Hp; apply Hm; by right). specialize (IH Hm').
    cbn [foldr main_changes omap list_omap].
    destruct (foldr (snap_step fo qo) (mk_sb "" 0 ∅ ∅ ∅, q) ps) as [b [[dn q'] first]] eqn:Ef. simpl in IH.
    unfold snap_step. cbn [fst]. subst b.
    destruct (sp_flows p !! 0%nat) as [c|] eqn:Ec.
    - assert (sp_flows p = {[ 0%nat := c ]}) as Hs.
      { apply map_eq. intros i. destruct (decide (i = 0%nat)) as [->|Hi]; [by rewrite lookup_singleton|].
        rewrite lookup_singleton_ne by done. destruct (sp_flows p !! i) eqn:Ei; [|done]. by destruct (Hm p i _ (elem_of_list_here _ _) Ei). }
      assert (fo (sp_flows p) = [c]) as ->.
      { apply Permutation_singleton_r. rewrite Hfo, Hs, map_to_list_singleton. done. }
      simpl. destruct (Hm p 0%nat c (elem_of_list_here _ _) Ec) as [_ ->]. by rewrite decide_False by lia.
    - assert (sp_flows p = ∅) as Hs.
      { apply map_eq. intros i. rewrite lookup_empty. destruct (sp_flows p !! i) eqn:Ei; [|done].
        destruct (Hm p i _ (elem_of_list_here _ _) Ei) as [-> _]. congruence. }
      assert (fo (sp_flows p) = []) as ->.
      { apply Permutation_nil_r. rewrite Hfo, Hs, map_to_list_empty. done. }
      done.
  Qed.

  Lemma snapshot_of_changes ps : main_only ps ->
    let sn := steps_to_snapshot fo qo ps in
    let cs := main_changes ps in
    sb_status (sn_base sn) = last_nonzero (fc_status <$> cs) /\
    (forall id, sb_tasks (sn_base sn) !! id = reported (task_reports cs id)) /\
    (forall n, sb_links (sn_base sn) !! n = reported (link_reports cs n)) /\
    (forall k, sb_attrs (sn_base sn) !! k = head (attr_reports cs k)) /\
    sn_subs sn = [].
  Proof.
    intros Hm. cbv zeta. rewrite (snap_base_eq ps Hm). clear Hm. induction (main_changes ps) as [|c cs (I1 & I2 & I3 & I4 & I5)].
    { split_and!; try done; intros; simpl; by rewrite lookup_empty. }
    simpl. split_and!; [..|done].
    - rewrite I1. unfold last_nonzero. simpl. done.
    - intros id. rewrite update_map, I2. unfold task_reports. simpl. destruct (fc_tasks c !! id) as [[k z]|] eqn:Et; simpl; [|done].
      symmetry. apply reported_cons.
    - intros n. rewrite update_map, I3. unfold link_reports. simpl. destruct (fc_links c !! n) as [[k z]|] eqn:Et; simpl; [|done].
      symmetry. apply reported_cons.
    - intros k. unfold attr_reports. simpl. destruct (fc_attrs c !! k) as [v|] eqn:Et; simpl.
      + by rewrite (lookup_union_Some_l _ _ _ _ Et).
      + rewrite lookup_union_r by done. apply I4.
  Qed.
End Orders.

(** ** Against the live state *)
Lemma replay_snoc ps p : replay (ps ++ [p]) = replay_step (replay ps) p.
Proof. unfold replay. by rewrite foldl_app. Qed.
Lemma replay_step_lookup w p i :
  replay_step w p !! i = match sp_flows p !! i with Some c => Some (replay_flow c (w !! i)) | None => w !! i end.
Proof.
  unfold replay_step. rewrite lookup_merge. unfold diag_None. by destruct (sp_flows p !! i), (w !! i).
Qed.
Lemma main_changes_snoc ps p : main_changes (ps ++ [p]) = main_changes ps ++ match sp_flows p !! 0%nat with Some c => [c] | None => [] end.
Proof. unfold main_changes. rewrite omap_app. simpl. by destruct (sp_flows p !! 0%nat). Qed.
Lemma reported_snoc zs z : z <> 0 -> reported (zs ++ [z]) = Some z.
Proof.
  intros Hz. unfold reported. destruct (zs ++ [z]) as [|a l] eqn:E; [by destruct zs|].
  rewrite <- E, last_nonzero_snoc. by rewrite decide_False.
Qed.

Lemma replay_reports ps v : replay ps !! 0%nat = Some v ->
  (fv_status v <> 0 -> last_nonzero (fc_status <$> main_changes ps) = fv_status v) /\
  (forall id z, fv_tasks v !! id = Some z -> z <> 0 -> reported (task_reports (main_changes ps) id) = Some z) /\
  (forall n z, fv_links v !! n = Some z -> z <> 0 -> reported (link_reports (main_changes ps) n) = Some z).
Proof.
  revert v. induction ps as [|p ps IH] using rev_ind; intros v.
  { unfold replay. simpl. by rewrite lookup_empty. }
  rewrite replay_snoc, replay_step_lookup, main_changes_snoc. destruct (sp_flows p !! 0%nat) as [c|].
  2:{ rewrite app_nil_r. apply IH. }
  intros [= <-]. rewrite fmap_app. unfold task_reports, link_reports. 
  assert (forall v0, v0 = (if fc_new c then mk_fv 0 ∅ ∅ else default (mk_fv 0 ∅ ∅) (replay ps !! 0%nat)) ->
    (fv_status v0 <> 0 -> last_nonzero (fc_status <$> main_changes ps) = fv_status v0) /\
    (forall id z, fv_tasks v0 !! id = Some z -> z <> 0 -> reported (task_reports (main_changes ps) id) = Some z) /\
    (forall n z, fv_links v0 !! n = Some z -> z <> 0 -> reported (link_reports (main_changes ps) n) = Some z)) as IH'.
  { assert (let v0 := mk_fv 0 ∅ ∅ in (fv_status v0 <> 0 -> last_nonzero (fc_status <$> main_changes ps) = fv_status v0) /\
    (forall id z, fv_tasks v0 !! id = Some z -> z <> 0 -> reported (task_reports (main_changes ps) id) = Some z) /\
    (forall n z, fv_links v0 !! n = Some z -> z <> 0 -> reported (link_reports (main_changes ps) n) = Some z)) as H0.
    { simpl. split_and!; [done|intros ??; by rewrite lookup_empty..]. }
    intros v0 ->. destruct (fc_new c); [done|]. destruct (replay ps !! 0%nat) as [v1|] eqn:E1; [by apply IH|done]. }
  unfold replay_flow. remember (if fc_new c then _ else _) as v0 eqn:Hv0. destruct (IH' v0 eq_refl) as (A & B & C). clear IH IH' Hv0.
  split_and!; simpl.
  - rewrite last_nonzero_snoc. case_decide; done.
  - intros id z. rewrite omap_app. simpl. rewrite lookup_merge. unfold diag_None.
    destruct (fc_tasks c !! id) as [[k z']|] eqn:Et; simpl.
    + intros Hz Hz0. assert (z' = z) as -> by (destruct k, (fv_tasks v0 !! id); simpl in Hz; congruence). by apply reported_snoc.
    + rewrite app_nil_r. intros Hz. apply B. by destruct (fv_tasks v0 !! id).
  - intros id z. rewrite omap_app. simpl. rewrite lookup_merge. unfold diag_None.
    destruct (fc_links c !! id) as [[k z']|] eqn:Et; simpl.
    + intros Hz Hz0. assert (z' = z) as -> by (destruct k, (fv_links v0 !! id); simpl in Hz; congruence). by apply reported_snoc.
    + rewrite app_nil_r. intros Hz. apply C. by destruct (fv_links v0 !! id).
Qed.

(** Which flows the steps are about. *)
Definition keyed (l : list event) (p : step) : Prop :=
  forall i c, sp_flows p !! i = Some c -> (exists e, e ∈ l /\ about i e) /\ (fc_sub c = 0%nat \/ fc_sub c = i).
Lemma keyed_weaken e l p : keyed l p -> keyed (e :: l) p.
Proof. intros H i c Hc. destruct (H i c Hc) as [(e' & He & Ha) Hs]. split; [|done]. exists e'. split; [by right|done]. Qed.
Lemma keyed_upd e l j f k :
  keyed l (tk_step k) -> about j e -> (forall c, fc_sub (f c) = fc_sub c \/ fc_sub (f c) = 0%nat \/ fc_sub (f c) = j) ->
  keyed (e :: l) (tk_step (upd_flow j f k)).
Proof.
  intros H Ha Hf i c. unfold upd_flow. simpl. destruct (decide (j = i)) as [->|Hn].
  - rewrite lookup_insert. intros [= <-]. split; [exists e; split; [left|done]|].
    destruct (Hf (default fc_empty (sp_flows (tk_step k) !! i))) as [->|?]; [|done].
    destruct (sp_flows (tk_step k) !! i) as [c|] eqn:Ec; [by destruct (H i c Ec)|by left].
  - rewrite lookup_insert_ne by done. intros Hc. by apply (keyed_weaken e l _ H).
Qed.
Lemma tracked_keyed db uri l : forall p, p ∈ tk_step (tracked db 0 uri l).1 :: (tracked db 0 uri l).2 -> keyed l p.
Proof.
  induction l as [|e l IH].
  { intros p ->%elem_of_list_singleton i c. simpl. by rewrite lookup_empty. }
  simpl. destruct (tracked db 0 uri l) as [k ps]. simpl in IH.
  assert (keyed l (tk_step k)) as Hk by (apply IH; left).
  assert (forall k', keyed (e :: l) (tk_step k') -> forall p, p ∈ tk_step k' :: ps -> keyed (e :: l) p) as Hnew.
  { intros k' Hk' p [->|Hp]%elem_of_cons; [done|]. apply keyed_weaken, IH. by right. }
  pose proof (keyed_weaken e l _ Hk) as Hke.
  destruct e; cbn [track1 fst snd]; try (by apply Hnew).
  - apply Hnew. apply keyed_upd; [done|done|]. intros c. by right; left.
  - apply Hnew. apply keyed_upd; [done|done|]. intros c. by left.
  - apply Hnew. unfold tk_done. destruct (tk_debug k); [|done]. apply keyed_upd; [done|done|]. intros c. by left.
  - apply Hnew. apply keyed_upd; [done|done|]. intros c. by right; right.
  - apply Hnew. unfold tk_done. destruct (tk_debug k); [|done]. apply keyed_upd; [done|done|]. intros c. by left.
  - match goal with |- context [match ?b with true => _ | false => _ end] => destruct b end; [|by apply Hnew].
    apply Hnew. unfold tk_attrs. case_decide; [done|]. apply keyed_upd; [done|done|]. intros c. by left.
  - apply Hnew. apply keyed_upd; [done|done|]. intros c. by left.
  - apply Hnew. apply keyed_upd; [done|done|]. intros c. by left.
  - apply Hnew. apply keyed_upd; [done|done|]. intros c. by left.
  - apply Hnew. apply keyed_upd; [done|done|]. intros c. by left.
  - apply Hnew. apply keyed_upd; [done|done|]. intros c. by left.
  - apply Hnew. apply keyed_upd; [done|done|]. intros c. by left.
  - apply Hnew. apply keyed_upd; [done|done|]. intros c. by left.
  - apply Hnew. intros i' c. rewrite queue_flows. apply Hke.
  - apply Hnew. intros i' c. rewrite queue_flows. apply Hke.
  - intros p [->|Hp]%elem_of_cons; [intros i c; simpl; by rewrite lookup_empty|]. apply elem_of_cons in Hp as [->|Hp]; [done|].
    apply keyed_weaken, IH. by right.
Qed.

Section Live.
  Local Set Default Proof Using "Type*".
  Context (E : env) (d : defn) (uri : string).

  Lemma recorded_main_only db s c : reach E d uri c s -> dom (s_insts s) = {[ 0%nat ]} -> main_only (recorded db 0 uri s).
  Proof.
    intros R Hd p i ch Hp Hc. unfold recorded in Hp. rewrite in_rev_elem in Hp.
    destruct (tracked_keyed db uri (s_log s) p ltac:(by right) i ch Hc) as [(e & He & Ha) Hs].
    assert (i = 0%nat) as ->.
    { pose proof (inv_lt E d uri c s R) as L. destruct (lt_about _ _ _ L _ _ He Ha) as [v Hv]. unfold pi in Hv.
      destruct (s_insts s !! i) eqn:Hi; [|done]. assert (i ∈ dom (s_insts s)) as Hin by (apply elem_of_dom; eauto).
      rewrite Hd in Hin. by apply elem_of_singleton in Hin. }
    split; [done|]. by destruct Hs.
  Qed.

  Lemma snapshot_shows fo qo db s c y r :
    (forall m, fo m ≡ₚ (map_to_list m).*2) ->
    reach E d uri c s -> s_log s = EvStep :: r -> in_order (s_log s) -> links_reported s ->
    dom (s_insts s) = {[ 0%nat ]} -> s_insts s !! 0%nat = Some y ->
    let sn := steps_to_snapshot fo qo (recorded db 0 uri s) in
    (i_status y <> 0 -> sb_status (sn_base sn) = i_status y) /\
    (forall id t x, i_tasks y !! id = Some t -> s_tis s !! t = Some x -> ti_status x <> 0 ->
       sb_tasks (sn_base sn) !! id = Some (ti_status x)) /\
    (forall n z, i_links y !! n = Some z -> z <> 0 -> sb_links (sn_base sn) !! n = Some z).
  Proof.
    intros Hfo R Hl Ho Hr Hd Hy. pose proof (replays E d uri db s c R Ho Hr) as Hrep. rewrite replay_snoc in Hrep.
    assert (replay (recorded db 0 uri s) !! 0%nat = live s !! 0%nat) as Hv.
    { rewrite <- Hrep, replay_step_lookup. rewrite Hl. simpl. destruct (tracked db 0 uri r) as [k ps]. simpl. by rewrite lookup_empty. }
    unfold live in Hv. rewrite lookup_fmap, Hy in Hv. simpl in Hv.
    destruct (replay_reports _ _ Hv) as (A & B & C). simpl in A, B, C.
    destruct (snapshot_of_changes fo qo Hfo _ (recorded_main_only db s c R Hd)) as (S1 & S2 & S3 & _). cbv zeta.
    split_and!.
    - intros Hz. rewrite S1. by apply A.
    - intros id t x Ht Hx Hz. rewrite S2. apply B; [|done]. rewrite lookup_omap, Ht. simpl. by rewrite Hx.
    - intros n z Hn Hz. rewrite S3. by apply C.
  Qed.
End Live.
