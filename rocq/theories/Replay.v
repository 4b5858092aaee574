(** The recorded steps replay to the live state (proofs; no Go counterpart). *)
From Verif Require Export SpecRec Life.
Local Open Scope Z_scope.

(** ** What the log says *)
Definition at_flow {A} (i j : nat) (f : A -> A) (a : A) : A := if decide (j = i) then f a else a.
Lemma at_flow_eq {A} i (f : A -> A) a : at_flow i i f a = f a.
Proof. unfold at_flow. by rewrite decide_True. Qed.
Lemma at_flow_ne {A} i j (f : A -> A) a : j <> i -> at_flow i j f a = a.
Proof. intros H. unfold at_flow. by rewrite decide_False. Qed.
Fixpoint ltasks (l : list event) (i : nat) : gmap string Z :=
  match l with
  | [] => ∅
  | e :: r =>
      match e with
      | EvSubCreated j _ _ _ => at_flow i j (fun _ => ∅) (ltasks r i)
      | EvTaskAdd j id => at_flow i j (insert id 0) (ltasks r i)
      | EvTaskUpd j id z | EvTaskTrk j id z => at_flow i j (insert id z) (ltasks r i)
      | EvTaskDel j id => at_flow i j (delete id) (ltasks r i)
      | _ => ltasks r i
      end
  end.
(** [b]: as assigned, else as reported. *)
Fixpoint llinks (b : bool) (l : list event) (i : nat) : gmap nat Z :=
  match l with
  | [] => ∅
  | e :: r =>
      match e with
      | EvSubCreated j _ _ _ => at_flow i j (fun _ => ∅) (llinks b r i)
      | EvLinkAdd j n => at_flow i j (insert n 0) (llinks b r i)
      | EvLinkSet j n z => if b then at_flow i j (insert n z) (llinks b r i) else llinks b r i
      | EvLinkUpd j n z => if b then llinks b r i else at_flow i j (insert n z) (llinks b r i)
      | EvLinkDel j n => at_flow i j (delete n) (llinks b r i)
      | _ => llinks b r i
      end
  end.
Definition lview (l : list event) (i : nat) : fview := mk_fv (status_in l i) (ltasks l i) (llinks false l i).

(** Statuses are reported properly. *)
Fixpoint proper (l : list event) : Prop :=
  match l with
  | [] => True
  | e :: r =>
      proper r /\
      match e with
      | EvFlowCreated => r = []
      | EvFlowStatus _ z => z <> 0
      | EvFlowDone => status_in r 0 <> 0
      | EvSubDone i => status_in r i <> 0
      | _ => True
      end
  end.

Definition dflt (v : option fview) : fview := default (mk_fv 0 ∅ ∅) v.

(** The view of flow [i] after replaying [ps] (newest first) and the current step. *)
Definition shown (x : tracker * list step) (i : nat) : option fview :=
  replay_step (replay (rev x.2)) (tk_step x.1) !! i.
Lemma shown_eq k ps i :
  shown (k, ps) i = match sp_flows (tk_step k) !! i with
                    | Some c => Some (replay_flow c (replay (rev ps) !! i))
                    | None => replay (rev ps) !! i
                    end.
Proof.
  unfold shown, replay_step. simpl. rewrite lookup_merge. unfold diag_None.
  destruct (sp_flows (tk_step k) !! i), (replay (rev ps) !! i); reflexivity.
Qed.
Lemma shown_dflt k ps i :
  dflt (shown (k, ps) i) = replay_flow (default fc_empty (sp_flows (tk_step k) !! i)) (replay (rev ps) !! i).
Proof.
  rewrite shown_eq. destruct (sp_flows (tk_step k) !! i) as [c|]; [done|]. simpl. unfold replay_flow. simpl.
  unfold dflt. destruct (replay (rev ps) !! i) as [[z a b]|]; simpl; f_equal.
  all: apply map_eq; intros j; rewrite lookup_merge; unfold diag_None; rewrite ?lookup_empty.
  all: first [destruct (a !! j)|destruct (b !! j)|idtac]; done.
Qed.
Lemma shown_upd j f k ps i :
  dflt (shown (upd_flow j f k, ps) i) =
    if decide (j = i) then replay_flow (f (default fc_empty (sp_flows (tk_step k) !! i))) (replay (rev ps) !! i)
    else dflt (shown (k, ps) i).
Proof.
  rewrite !shown_dflt. unfold upd_flow. simpl. case_decide as H.
  - subst. by rewrite lookup_insert.
  - by rewrite lookup_insert_ne.
Qed.
Lemma shown_some j f k ps i :
  is_Some (shown (upd_flow j f k, ps) i) <-> j = i \/ is_Some (shown (k, ps) i).
Proof.
  rewrite !shown_eq. unfold upd_flow. simpl. destruct (decide (j = i)) as [->|H].
  - rewrite lookup_insert. naive_solver.
  - rewrite lookup_insert_ne by done. naive_solver.
Qed.
Lemma shown_step k ps i : shown ((tk_extract k).2, (tk_extract k).1 :: ps) i = shown (k, ps) i.
Proof.
  rewrite (shown_eq _ (_ :: ps)). simpl. rewrite lookup_empty. unfold replay. rewrite foldl_app. reflexivity.
Qed.
(** The first flow changes only. *)
Lemma shown_same k k' ps i : sp_flows (tk_step k') = sp_flows (tk_step k) -> shown (k', ps) i = shown (k, ps) i.
Proof. intros H. by rewrite !shown_eq, H. Qed.

Lemma merge_insert_some (K : Type) `{Countable K} (m : gmap K (chg * Z)) (w : gmap K Z) k c z :
  c <> CDelete -> merge replay_entry (<[k := (c, z)]> m) w = <[k := z]> (merge replay_entry m w).
Proof.
  intros Hc. apply map_eq. intros j. rewrite lookup_merge. destruct (decide (k = j)) as [->|Hn].
  - rewrite !lookup_insert. simpl. destruct (w !! j), c; done.
  - rewrite !lookup_insert_ne by done. by rewrite lookup_merge.
Qed.
Lemma merge_insert_del (K : Type) `{Countable K} (m : gmap K (chg * Z)) (w : gmap K Z) k z :
  merge replay_entry (<[k := (CDelete, z)]> m) w = delete k (merge replay_entry m w).
Proof.
  apply map_eq. intros j. rewrite lookup_merge. destruct (decide (k = j)) as [->|Hn].
  - rewrite lookup_insert, lookup_delete. simpl. destruct (w !! j); done.
  - rewrite lookup_insert_ne, lookup_delete_ne by done. by rewrite lookup_merge.
Qed.

Lemma queue_flows w id b k : sp_flows (tk_step (tk_queue w id b k)) = sp_flows (tk_step k).
Proof. unfold tk_queue. by destruct (default (CAdd, 0%nat, "") _) as [[??]?]. Qed.

(** A removal in the current step has been logged. *)
Definition removals (l : list event) (k : tracker) : Prop :=
  (forall i c id z, sp_flows (tk_step k) !! i = Some c -> fc_tasks c !! id = Some (CDelete, z) -> EvTaskDel i id ∈ l) /\
  (forall i c n z, sp_flows (tk_step k) !! i = Some c -> fc_links c !! n = Some (CDelete, z) -> EvLinkDel i n ∈ l).
Lemma removals_weaken l l' k : (forall e, e ∈ l -> e ∈ l') -> removals l k -> removals l' k.
Proof. intros H [H1 H2]. split; intros; apply H; eauto. Qed.
Lemma removals_upd l j f k :
  removals l k ->
  (forall c id z, fc_tasks (f c) !! id = Some (CDelete, z) ->
     (exists z', fc_tasks c !! id = Some (CDelete, z')) \/ EvTaskDel j id ∈ l) ->
  (forall c id z, fc_links (f c) !! id = Some (CDelete, z) ->
     (exists z', fc_links c !! id = Some (CDelete, z')) \/ EvLinkDel j id ∈ l) ->
  removals l (upd_flow j f k).
Proof.
  intros [H1 H2] Ht Hl. split; intros i c id z Hc Hd; unfold upd_flow in Hc; simpl in Hc.
  all: destruct (decide (j = i)) as [->|Hn]; [rewrite lookup_insert in Hc|rewrite lookup_insert_ne in Hc by done; eauto].
  all: injection Hc as <-; first [apply Ht in Hd|apply Hl in Hd].
  all: destruct Hd as [[z' Hd]|Hd]; [|done].
  all: destruct (sp_flows (tk_step k) !! i) as [c0|] eqn:Ec; simpl in Hd; [|by rewrite lookup_empty in Hd].
  all: eauto.
Qed.
Lemma removals_same l k k' : sp_flows (tk_step k') = sp_flows (tk_step k) -> removals l k -> removals l k'.
Proof. intros H [H1 H2]. split; intros i c id z; rewrite H; eauto. Qed.

Lemma tracked_removals db st uri l : removals l (tracked db st uri l).1.
Proof.
  induction l as [|e l IH].
  { split; intros i c id z Hc; simpl in Hc; by rewrite lookup_empty in Hc. }
  assert (removals (e :: l) (tracked db st uri l).1) as IH'.
  { eapply removals_weaken; [|exact IH]. intros. by right. }
  clear IH. simpl. destruct (tracked db st uri l) as [k ps]. simpl in IH'.
  assert (forall f j, (forall c, fc_tasks (f c) = fc_tasks c /\ fc_links (f c) = fc_links c) ->
            removals (e :: l) (upd_flow j f k)) as Hsame.
  { intros f j Hf. apply removals_upd; [done|..]; intros c id z; destruct (Hf c) as [E1 E2]; rewrite ?E1, ?E2; eauto. }
  destruct e; simpl; try done.
  - apply removals_upd; [done|..]; intros c id z; simpl; by rewrite lookup_empty.
  - by apply Hsame.
  - unfold tk_done. destruct (tk_debug k); [|done]. by apply Hsame.
  - apply removals_upd; [eapply removals_same; [|exact IH']; done|..]; intros c id' z'; simpl; by rewrite lookup_empty.
  - unfold tk_done. destruct (tk_debug k); [|done]. by apply Hsame.
  - match goal with |- context [match ?b with true => _ | false => _ end] => destruct b end; [|done].
    simpl. unfold tk_attrs. case_decide; [done|]. by apply Hsame.
  - apply removals_upd; [done|..]; intros c id' z'; simpl; [|by eauto].
    destruct (decide (id = id')) as [->|]; [rewrite lookup_insert|rewrite lookup_insert_ne by done; by eauto].
    destruct (fc_tasks c !! id') as [[a b]|] eqn:Et; simpl; [|done]. intros [= -> <-]. eauto.
  - apply removals_upd; [done|..]; intros c id' z'; simpl; [|by eauto].
    destruct (decide (id = id')) as [->|]; [rewrite lookup_insert; done|rewrite lookup_insert_ne by done; by eauto].
  - apply removals_upd; [done|..]; intros c id' z'; simpl; [|by eauto].
    destruct (decide (id = id')) as [->|]; [rewrite lookup_insert; done|rewrite lookup_insert_ne by done; by eauto].
  - apply removals_upd; [done|..]; intros c id' z'; simpl; [|by eauto].
    destruct (decide (id = id')) as [->|]; [right; left|rewrite lookup_insert_ne by done; by eauto].
  - apply removals_upd; [done|..]; intros c id' z'; simpl; [by eauto|].
    destruct (decide (l0 = id')) as [->|]; [rewrite lookup_insert|rewrite lookup_insert_ne by done; by eauto].
    destruct (fc_links c !! id') as [[a b]|] eqn:Et; simpl; [|done]. intros [= -> <-]. eauto.
  - apply removals_upd; [done|..]; intros c id' z'; simpl; [by eauto|].
    destruct (decide (l0 = id')) as [->|]; [rewrite lookup_insert; done|rewrite lookup_insert_ne by done; by eauto].
  - apply removals_upd; [done|..]; intros c id' z'; simpl; [by eauto|].
    destruct (decide (l0 = id')) as [->|]; [right; left|rewrite lookup_insert_ne by done; by eauto].
  - eapply removals_same; [|exact IH']. apply queue_flows.
  - eapply removals_same; [|exact IH']. apply queue_flows.
Qed.

(** Where a flow is reported of. *)
Definition about (i : nat) (e : event) : Prop :=
  match e with
  | EvFlowCreated | EvFlowDone => i = 0%nat
  | EvFlowStatus j _ | EvSubCreated j _ _ _ | EvSubDone j | EvSet j _ _ | EvTaskAdd j _ | EvTaskUpd j _ _
  | EvTaskTrk j _ _ | EvTaskDel j _ | EvLinkAdd j _ | EvLinkUpd j _ _ | EvLinkDel j _ => i = j
  | _ => False
  end.
Definition creates (i : nat) (e : event) : Prop :=
  match e with EvFlowCreated => i = 0%nat | EvSubCreated j _ _ _ => i = j | _ => False end.

Lemma replay_flow_fields c v :
  replay_flow c v =
    let v := if fc_new c then mk_fv 0 ∅ ∅ else dflt v in
    mk_fv (if decide (fc_status c = 0) then fv_status v else fc_status c)
      (merge replay_entry (fc_tasks c) (fv_tasks v)) (merge replay_entry (fc_links c) (fv_links v)).
Proof. done. Qed.

(** The tracker shows what the log says. *)
Lemma tracked_shows db uri l :
  in_order l -> proper l -> forall i, dflt (shown (tracked db 0 uri l) i) = lview l i.
Proof.
  induction l as [|e l IH]; intros Ho Hp i.
  { unfold dflt, lview. cbn [tracked]. rewrite shown_eq. unfold replay. cbn. by rewrite !lookup_empty. }
  destruct Ho as [Ho Hoe], Hp as [Hp Hpe]. specialize (IH Ho Hp i).
  pose proof (tracked_removals db 0 uri l) as [Rt Rl].
  simpl. destruct (tracked db 0 uri l) as [k ps] eqn:Ek. simpl in Rt, Rl.
  assert (forall j f, (forall c v, c = default fc_empty (sp_flows (tk_step k) !! i) -> replay_flow c v = lview l i ->
             j = i -> replay_flow (f c) v = lview (e :: l) i) ->
            (j <> i -> lview (e :: l) i = lview l i) ->
            dflt (shown (upd_flow j f k, ps) i) = lview (e :: l) i) as Hupd.
  { intros j f H1 H2. rewrite shown_upd. case_decide as Hj.
    - apply H1; [done| |done]. by rewrite shown_dflt in IH.
    - by rewrite H2. }
  destruct e; simpl track1; try done.
  - apply Hupd; [|done]. intros c v Hc Hv Hj. subst l. unfold replay_flow, lview. simpl.
    f_equal; apply map_eq; intros j; by rewrite lookup_merge, !lookup_empty.
  - apply Hupd.
    + intros c v Hc Hv ->. unfold lview in *. simpl. rewrite decide_True by done.
      rewrite replay_flow_fields in *. simpl in *. rewrite decide_False by done. by injection Hv as _ <- <-.
    + intros Hj. unfold lview. simpl. by rewrite decide_False.
  - unfold tk_done. destruct (tk_debug k); [|done]. apply Hupd; [|done].
    intros c v Hc Hv <-. unfold lview in *. rewrite replay_flow_fields in *. simpl in *.
    rewrite decide_False by done. by injection Hv as _ <- <-.
  - unfold tk_sub_created. match goal with |- context [upd_flow ?j ?f ?k'] => 
      assert (dflt (shown (upd_flow j f k, ps) i) = lview (EvSubCreated i0 uri0 pi host :: l) i) as H end.
    { apply Hupd.
      - intros c v Hc Hv ->. unfold replay_flow, lview. simpl. rewrite decide_True, !at_flow_eq by done.
        f_equal; apply map_eq; intros j; by rewrite lookup_merge, !lookup_empty.
      - intros Hj. unfold lview. simpl. by rewrite decide_False, !at_flow_ne by done. }
    unfold tk_sub_created. by erewrite shown_same.
  - unfold tk_done. destruct (tk_debug k); [|done]. apply Hupd; [|done].
    intros c v Hc Hv <-. unfold lview in *. rewrite replay_flow_fields in *. simpl in *.
    rewrite decide_False by done. by injection Hv as _ <- <-.
  - match goal with |- context [match ?b with true => _ | false => _ end] => destruct b end; [|done].
    unfold tk_attrs. case_decide; [done|]. by apply Hupd.
  - apply Hupd.
    + intros c v Hc Hv ->. unfold lview in *. rewrite replay_flow_fields in *. simpl in *. rewrite at_flow_eq.
      injection Hv as <- <- <-. f_equal. apply merge_insert_some.
      destruct (fc_tasks c !! id) as [[a b]|] eqn:Et; simpl; [|done]. intros ->. apply Hoe.
      destruct (sp_flows (tk_step k) !! i) as [c0|] eqn:Ec; simpl in Hc; subst c; [by eapply Rt|].
      cbn in Et; by rewrite lookup_empty in Et.
    + intros Hj. unfold lview. simpl. by rewrite at_flow_ne.
  - apply Hupd.
    + intros c v Hc Hv ->. unfold lview in *. rewrite replay_flow_fields in *. simpl in *. rewrite at_flow_eq.
      injection Hv as <- <- <-. f_equal. by apply merge_insert_some.
    + intros Hj. unfold lview. simpl. by rewrite at_flow_ne.
  - apply Hupd.
    + intros c v Hc Hv ->. unfold lview in *. rewrite replay_flow_fields in *. simpl in *. rewrite at_flow_eq.
      injection Hv as <- <- <-. f_equal. by apply merge_insert_some.
    + intros Hj. unfold lview. simpl. by rewrite at_flow_ne.
  - apply Hupd.
    + intros c v Hc Hv ->. unfold lview in *. rewrite replay_flow_fields in *. simpl in *. rewrite at_flow_eq.
      injection Hv as <- <- <-. f_equal. by apply merge_insert_del.
    + intros Hj. unfold lview. simpl. by rewrite at_flow_ne.
  - apply Hupd.
    + intros c v Hc Hv ->. unfold lview in *. rewrite replay_flow_fields in *. simpl in *. rewrite at_flow_eq.
      injection Hv as <- <- <-. f_equal. apply merge_insert_some.
      destruct (fc_links c !! l0) as [[a b]|] eqn:Et; simpl; [|done]. intros ->. apply Hoe.
      destruct (sp_flows (tk_step k) !! i) as [c0|] eqn:Ec; simpl in Hc; subst c; [by eapply Rl|].
      cbn in Et; by rewrite lookup_empty in Et.
    + intros Hj. unfold lview. simpl. by rewrite at_flow_ne.
  - apply Hupd.
    + intros c v Hc Hv ->. unfold lview in *. rewrite replay_flow_fields in *. simpl in *. rewrite at_flow_eq.
      injection Hv as <- <- <-. f_equal. by apply merge_insert_some.
    + intros Hj. unfold lview. simpl. by rewrite at_flow_ne.
  - apply Hupd.
    + intros c v Hc Hv ->. unfold lview in *. rewrite replay_flow_fields in *. simpl in *. rewrite at_flow_eq.
      injection Hv as <- <- <-. f_equal. by apply merge_insert_del.
    + intros Hj. unfold lview. simpl. by rewrite at_flow_ne.
  - rewrite (shown_same k); [done|]. apply queue_flows.
  - rewrite (shown_same k); [done|]. apply queue_flows.
  - pose proof (shown_step k ps i) as H. simpl in H. simpl. rewrite H. done.
Qed.
Lemma tracked_some db uri l i : in_order l ->
  ((exists e, e ∈ l /\ creates i e) -> is_Some (shown (tracked db 0 uri l) i)) /\
  (is_Some (shown (tracked db 0 uri l) i) -> exists e, e ∈ l /\ about i e).
Proof.
  induction l as [|e l IH].
  { intros _. split; [intros (e & He & _); by apply elem_of_nil in He|]. intros [v Hv]. cbn [tracked] in Hv. rewrite shown_eq in Hv. unfold replay in Hv. cbn in Hv. by rewrite !lookup_empty in Hv. }
  intros [Ho Hoe]. destruct (IH Ho) as [IH1 IH2]. clear IH.
  simpl. destruct (tracked db 0 uri l) as [k ps] eqn:Ek.
  assert (forall j f, (creates i e -> j = i) -> (j = i -> about i e) ->
     ((exists e', e' ∈ e :: l /\ creates i e') -> is_Some (shown (upd_flow j f k, ps) i)) /\
     (is_Some (shown (upd_flow j f k, ps) i) -> exists e', e' ∈ e :: l /\ about i e')) as Hupd.
  { intros j f Hc Hb. split.
    - intros (e' & [->|He]%elem_of_cons & H); apply shown_some; [left; by apply Hc|]. right. apply IH1. eauto.
    - intros [H|H]%shown_some; [exists e; split; [left|by apply Hb]|].
      destruct (IH2 H) as (e' & He & H'). exists e'. split; [by right|done]. }
  assert (~ creates i e -> forall x, (forall j, shown x j = shown (k, ps) j) ->
     ((exists e', e' ∈ e :: l /\ creates i e') -> is_Some (shown x i)) /\
     (is_Some (shown x i) -> exists e', e' ∈ e :: l /\ about i e')) as Hsame.
  { intros Hc x Hx. rewrite Hx. split.
    - intros (e' & [->|He]%elem_of_cons & H); [done|]. apply IH1. eauto.
    - intros H. destruct (IH2 H) as (e' & He & H'). exists e'. split; [by right|done]. }
  destruct e; simpl track1; try (by apply Hsame; [intros []|]).
  - apply Hupd; simpl; auto.
  - apply Hupd; simpl; auto. done.
  - unfold tk_done. destruct (tk_debug k); [|by apply Hsame; [intros []|]]. apply Hupd; simpl; auto. done.
  - unfold tk_sub_created. match goal with |- context [upd_flow ?j ?f ?k'] => 
      rewrite (shown_same (upd_flow j f k) (upd_flow j f k')) by done end. apply Hupd; simpl; auto.
  - unfold tk_done. destruct (tk_debug k); [|by apply Hsame; [intros []|]]. apply Hupd; simpl; auto. done.
  - match goal with |- context [match ?b with true => _ | false => _ end] => destruct b end; [|by apply Hsame; [intros []|]].
    unfold tk_attrs. case_decide; [by apply Hsame; [intros []|]|]. apply Hupd; simpl; auto. done.
  - apply Hupd; simpl; auto. done.
  - apply Hupd; simpl; auto. done.
  - apply Hupd; simpl; auto. done.
  - apply Hupd; simpl; auto. done.
  - apply Hupd; simpl; auto. done.
  - apply Hupd; simpl; auto. done.
  - apply Hupd; simpl; auto. done.
  - apply Hsame; [intros []|]. intros j. apply shown_same. apply queue_flows.
  - apply Hsame; [intros []|]. intros j. apply shown_same. apply queue_flows.
  - apply Hsame; [intros []|]. intros j. apply (shown_step k ps j).
Qed.

(** ** The log says what is live *)
Definition pi (s : st) (i : nat) : option (Z * gmap string nat * gmap nat Z) :=
  (fun y => (i_status y, i_tasks y, i_links y)) <$> s_insts s !! i.
Definition pt (s : st) (t : nat) : option (nat * string * Z) :=
  (fun x => (ti_inst x, t_id (ti_task x), ti_status x)) <$> s_tis s !! t.

Record logtrue (P : nat -> option (Z * gmap string nat * gmap nat Z)) (Q : nat -> option (nat * string * Z))
    (l : list event) : Prop := mk_lt {
  lt_proper : proper l;
  lt_started : forall i z, EvFlowStatus i z ∈ l -> exists a b c, P i = Some (a, b, c) /\ a <> 0;
  lt_status : forall i a b c, P i = Some (a, b, c) -> status_in l i = a;
  lt_links : forall i a b c, P i = Some (a, b, c) -> llinks true l i = c;
  lt_about : forall i e, e ∈ l -> about i e -> is_Some (P i);
  lt_lset : forall i n z, EvLinkSet i n z ∈ l -> is_Some (P i);
  lt_created : forall i, is_Some (P i) -> exists e, e ∈ l /\ creates i e;
  lt_unique : in_order l -> forall t i id z, Q t = Some (i, id, z) -> EvTaskDel i id ∉ l ->
    exists a b c, P i = Some (a, b, c) /\ b !! id = Some t;
  lt_tasks : in_order l -> forall i a b c, P i = Some (a, b, c) -> forall id, ltasks l i !! id =
    (b !! id) ≫= (fun t => snd <$> Q t)
}.

Lemma lt_ext P P' Q Q' l : (forall i, P' i = P i) -> (forall t, Q' t = Q t) -> logtrue P Q l -> logtrue P' Q' l.
Proof.
  intros HP HQ [H1 H2 H3 H4 H5 H6 H7 H8 H9]. constructor.
  - done.
  - intros i z. rewrite HP. apply H2.
  - intros i a b c. rewrite HP. apply H3.
  - intros i a b c. rewrite HP. apply H4.
  - intros i e. rewrite HP. apply H5.
  - intros i n z. rewrite HP. apply H6.
  - intros i. rewrite HP. apply H7.
  - intros Ho t i id z. rewrite HQ, HP. by apply H8.
  - intros Ho i a b c. rewrite HP. intros Hi id. rewrite (H9 Ho i a b c Hi id).
    destruct (b !! id) as [t|]; simpl; [|done]. by rewrite HQ.
Qed.

(** Events that say nothing about statuses, tasks and links. *)
Definition mute (e : event) : Prop :=
  match e with
  | EvFlowCreated | EvFlowStatus _ _ | EvSubCreated _ _ _ _ | EvTaskAdd _ _ | EvTaskUpd _ _ _ | EvTaskTrk _ _ _ | EvTaskDel _ _
  | EvLinkAdd _ _ | EvLinkSet _ _ _ | EvLinkDel _ _ | EvTasksClear _ => False
  | _ => True
  end.
Lemma lt_mute P Q l e :
  mute e -> (forall i, about i e -> is_Some (P i)) ->
  match e with EvFlowDone => status_in l 0 <> 0 | EvSubDone i => status_in l i <> 0 | _ => True end ->
  logtrue P Q l -> logtrue P Q (e :: l).
Proof.
  intros Hm Ha Hd [H1 H2 H3 H4 H5 H6 H7 H8 H9]. constructor.
  - split; [done|]. destruct e; done.
  - intros i z [<-|H]%elem_of_cons; [done|by eapply H2].
  - intros i a b c Hi. rewrite <- (H3 _ _ _ _ Hi). destruct e; done.
  - intros i a b c Hi. rewrite <- (H4 _ _ _ _ Hi). destruct e; done.
  - intros i e' [->|H]%elem_of_cons He; [by apply Ha|by eapply H5].
  - intros i n z [<-|H]%elem_of_cons; [done|by eapply H6].
  - intros i Hi. destruct (H7 i Hi) as (e' & He & Hc). exists e'. split; [by right|done].
  - intros [Ho _] t i id z Ht Hn. eapply H8; [done..|]. intros H. apply Hn. by right.
  - intros [Ho _] i a b c Hi id. rewrite <- (H9 Ho _ _ _ _ Hi). destruct e; done.
Qed.

Definition upd1 {A} (f : nat -> option A) (i : nat) (a : option A) (j : nat) : option A := if decide (i = j) then a else f j.
Lemma upd1_eq {A} (f : nat -> option A) i a : upd1 f i a i = a.
Proof. unfold upd1. by rewrite decide_True. Qed.
Lemma upd1_ne {A} (f : nat -> option A) i j a : i <> j -> upd1 f i a j = f j.
Proof. intros. unfold upd1. by rewrite decide_False. Qed.

Lemma lt_fstat P Q l i z a b c :
  P i = Some (a, b, c) -> z <> 0 -> logtrue P Q l ->
  logtrue (upd1 P i (Some (z, b, c))) Q (EvFlowStatus i z :: l).
Proof.
  intros HP Hz [H1 H2 H3 H4 H5 H6 H7 H8 H9]. constructor.
  - done.
  - intros j z' [[= -> ->]|H]%elem_of_cons; [rewrite upd1_eq; eauto|].
    destruct (decide (i = j)) as [->|Hn]; [rewrite upd1_eq; eauto|rewrite upd1_ne by done; by eapply H2].
  - intros j a' b' c'. simpl. destruct (decide (i = j)) as [->|Hn]; [rewrite upd1_eq; by intros [= <- <- <-]|].
    rewrite upd1_ne by done. apply H3.
  - intros j a' b' c'. simpl. destruct (decide (i = j)) as [->|Hn]; [rewrite upd1_eq; intros [= <- <- <-]; eauto|].
    rewrite upd1_ne by done. apply H4.
  - intros j e' [->|H]%elem_of_cons He; [simpl in He; subst; rewrite upd1_eq; by eauto|].
    destruct (decide (i = j)) as [->|Hn]; [rewrite upd1_eq; eauto|rewrite upd1_ne by done; by eapply H5].
  - intros j n z' [?|H]%elem_of_cons; [done|]. destruct (decide (i = j)) as [->|Hn]; [rewrite upd1_eq; eauto|rewrite upd1_ne by done; by eapply H6].
  - intros j Hj. destruct (H7 j) as (e' & He & Hc); [|exists e'; split; [by right|done]].
    destruct (decide (i = j)) as [->|Hn]; [eauto|by rewrite upd1_ne in Hj].
  - intros [Ho _] t j id z' Ht Hn. destruct (H8 Ho t j id z' Ht) as (a' & b' & c' & HP' & Hb); [intros H; apply Hn; by right|].
    destruct (decide (i = j)) as [->|Hn2]; [|rewrite upd1_ne by done; eauto].
    rewrite upd1_eq. rewrite HP in HP'. injection HP' as <- <- <-. eauto.
  - intros [Ho _] j a' b' c'. simpl. destruct (decide (i = j)) as [->|Hn]; [rewrite upd1_eq; intros [= <- <- <-]; eauto|].
    rewrite upd1_ne by done. by apply H9.
Qed.

(** The tables lead to task instances of the flow. *)
Definition reg_ok (P : nat -> option (Z * gmap string nat * gmap nat Z)) (Q : nat -> option (nat * string * Z)) : Prop :=
  forall i a b c id t, P i = Some (a, b, c) -> b !! id = Some t -> exists z, Q t = Some (i, id, z).

(** The status of the live instance of task [id]. *)
Lemma lt_tstat P Q l i id z z0 t e :
  e = EvTaskUpd i id z \/ e = EvTaskTrk i id z ->
  Q t = Some (i, id, z0) -> is_Some (P i) -> reg_ok P Q -> logtrue P Q l ->
  logtrue P (upd1 Q t (Some (i, id, z))) (e :: l).
Proof.
  intros He HQ HPi Hr [H1 H2 H3 H4 H5 H6 H7 H8 H9].
  assert (forall i, status_in (e :: l) i = status_in l i) as E1 by (destruct He; by subst).
  assert (forall i, llinks true (e :: l) i = llinks true l i) as E2 by (destruct He; by subst).
  assert (in_order (e :: l) -> in_order l /\ EvTaskDel i id ∉ l) as E3 by (destruct He; by subst).
  assert (forall j, ltasks (e :: l) j = at_flow j i (insert id z) (ltasks l j)) as E4 by (destruct He; by subst).
  constructor.
  - split; [done|]. destruct He; by subst.
  - intros j z' [?|H]%elem_of_cons; [destruct He; by subst|by eapply H2].
  - intros j. rewrite E1. apply H3.
  - intros j. rewrite E2. apply H4.
  - intros j e' [->|H]%elem_of_cons Hb; [|by eapply H5]. destruct He; subst; simpl in Hb; by subst.
  - intros j n z' [?|H]%elem_of_cons; [destruct He; by subst|by eapply H6].
  - intros j Hj. destruct (H7 j Hj) as (e' & He' & Hc). exists e'. split; [by right|done].
  - intros [Ho _]%E3 t' j id' z' Ht Hn. assert (EvTaskDel j id' ∉ l) as Hn' by (intros H; apply Hn; by right).
    destruct (decide (t = t')) as [->|Hne].
    + rewrite upd1_eq in Ht. injection Ht as -> -> ->. by eapply H8.
    + rewrite upd1_ne in Ht by done. by eapply H8.
  - intros [Ho Hnd]%E3 j a b c Hj id'. rewrite E4.
    destruct (H8 Ho t i id z0 HQ Hnd) as (a1 & b1 & c1 & HP1 & Hb1).
    assert (forall t', b !! id' = Some t' -> (j, id') <> (i, id) -> t <> t') as Hdiff.
    { intros t' Hb Hd <-. destruct (Hr _ _ _ _ _ _ Hj Hb) as [z' Hz]. rewrite HQ in Hz. injection Hz as -> -> _. done. }
    destruct (decide (i = j)) as [<-|Hij].
    + rewrite at_flow_eq. rewrite Hj in HP1. injection HP1 as <- <- <-. destruct (decide (id = id')) as [<-|Hid].
      * by rewrite lookup_insert, Hb1; simpl; rewrite upd1_eq.
      * rewrite lookup_insert_ne by done. rewrite (H9 Ho _ _ _ _ Hj id'). destruct (b !! id') as [t'|] eqn:Hb; simpl; [|done].
        rewrite upd1_ne; [done|]. apply (Hdiff t' eq_refl). congruence.
    + rewrite at_flow_ne by done. rewrite (H9 Ho _ _ _ _ Hj id'). destruct (b !! id') as [t'|] eqn:Hb; simpl; [|done].
      rewrite upd1_ne; [done|]. apply (Hdiff t' eq_refl). congruence.
Qed.

(** The table of tasks of flow [i] changes. *)
Lemma lt_ttab P Q Q' l i e a b b' c :
  P i = Some (a, b, c) -> logtrue P Q l ->
  (match e with EvTaskAdd j _ | EvTaskDel j _ | EvTasksClear j => i = j | _ => False end) ->
  (in_order (e :: l) -> forall t j id z, Q' t = Some (j, id, z) -> EvTaskDel j id ∉ e :: l ->
     exists a1 b1 c1, upd1 P i (Some (a, b', c)) j = Some (a1, b1, c1) /\ b1 !! id = Some t) ->
  (in_order (e :: l) -> forall j a1 b1 c1, upd1 P i (Some (a, b', c)) j = Some (a1, b1, c1) -> forall id,
     ltasks (e :: l) j !! id = b1 !! id ≫= (fun t => snd <$> Q' t)) ->
  logtrue (upd1 P i (Some (a, b', c))) Q' (e :: l).
Proof.
  intros HP [H1 H2 H3 H4 H5 H6 H7 H8 H9] He HU HT.
  assert (forall j, (upd1 P i (Some (a, b', c)) j = P j) \/ (j = i /\ upd1 P i (Some (a, b', c)) j = Some (a, b', c))) as Hu.
  { intros j. destruct (decide (i = j)) as [<-|Hn]; [right; by rewrite upd1_eq|left; by rewrite upd1_ne]. }
  assert (forall j, status_in (e :: l) j = status_in l j) as E1 by (by destruct e).
  assert (forall j, llinks true (e :: l) j = llinks true l j) as E2 by (by destruct e).
  constructor.
  - split; [done|]. by destruct e.
  - intros j z' [?|H]%elem_of_cons; [by destruct e|].
    destruct (Hu j) as [->|[-> ->]]; [by eapply H2|]. destruct (H2 _ _ H) as (?&?&?&HP'&?). rewrite HP in HP'. injection HP' as <- <- <-. eauto.
  - intros j a' b1 c'. rewrite E1. destruct (Hu j) as [->|[-> ->]]; [apply H3|]. intros [= <- <- <-]. eauto.
  - intros j a' b1 c'. rewrite E2. destruct (Hu j) as [->|[-> ->]]; [apply H4|]. intros [= <- <- <-]. eauto.
  - intros j e' [->|H]%elem_of_cons Hb.
    + destruct e; simpl in Hb; try done; subst; rewrite upd1_eq; eauto.
    + destruct (Hu j) as [->|[-> ->]]; [by eapply H5|eauto].
  - intros j n z' [?|H]%elem_of_cons; [by destruct e|]. destruct (Hu j) as [->|[-> ->]]; [by eapply H6|eauto].
  - intros j Hj. destruct (H7 j) as (e' & He' & Hc); [|exists e'; split; [by right|done]].
    destruct (Hu j) as [Ej|[-> _]]; [by rewrite Ej in Hj|eauto].
  - done.
  - done.
Qed.

Lemma lt_tnew P Q l i id t a b c :
  P i = Some (a, b, c) -> b !! id = None -> Q t = None -> reg_ok P Q -> logtrue P Q l ->
  logtrue (upd1 P i (Some (a, <[id := t]> b, c))) (upd1 Q t (Some (i, id, 0))) (EvTaskAdd i id :: l).
Proof.
  intros HP Hb HQ Hr L. eapply lt_ttab; [done|done|done|..].
  - intros [Ho Hnd] t' j id' z' Ht Hn. destruct (decide (t = t')) as [->|Hne].
    + rewrite upd1_eq in Ht. injection Ht as <- <- <-. rewrite upd1_eq. repeat eexists. apply lookup_insert.
    + rewrite upd1_ne in Ht by done. destruct (lt_unique _ _ _ L Ho _ _ _ _ Ht) as (a' & b' & c' & HP' & Hb').
      { intros H. apply Hn. by right. }
      destruct (decide (i = j)) as [<-|Hij]; [|rewrite upd1_ne by done; eauto].
      rewrite upd1_eq. rewrite HP in HP'. injection HP' as <- <- <-. repeat eexists.
      rewrite lookup_insert_ne; [done|]. intros ->. congruence.
  - intros [Ho Hnd] j a1 b1 c1 Hj id'. simpl. 
    assert (forall j a b c t', P j = Some (a, b, c) -> b !! id' = Some t' -> t <> t') as Hd.
    { intros j' a' b' c' t' Hj' Hb' <-. destruct (Hr _ _ _ _ _ _ Hj' Hb') as [z Hz]. congruence. }
    destruct (decide (i = j)) as [<-|Hij].
    + rewrite upd1_eq in Hj. injection Hj as <- <- <-. rewrite at_flow_eq. destruct (decide (id = id')) as [<-|Hid].
      * rewrite !lookup_insert. simpl. by rewrite upd1_eq.
      * rewrite !lookup_insert_ne by done. rewrite (lt_tasks _ _ _ L Ho _ _ _ _ HP id').
        destruct (b !! id') as [t'|] eqn:Hb'; simpl; [|done]. rewrite upd1_ne; [done|]. by eapply Hd.
    + rewrite upd1_ne in Hj by done. rewrite at_flow_ne by done. rewrite (lt_tasks _ _ _ L Ho _ _ _ _ Hj id').
      destruct (b1 !! id') as [t'|] eqn:Hb'; simpl; [|done]. rewrite upd1_ne; [done|]. by eapply Hd.
Qed.
Lemma lt_tdel P Q l i id a b c :
  P i = Some (a, b, c) -> logtrue P Q l ->
  logtrue (upd1 P i (Some (a, delete id b, c))) Q (EvTaskDel i id :: l).
Proof.
  intros HP L. eapply lt_ttab; [done|done|done|..].
  - intros [Ho _] t j id' z' Ht Hn. destruct (lt_unique _ _ _ L Ho _ _ _ _ Ht) as (a' & b' & c' & HP' & Hb').
    { intros H. apply Hn. by right. }
    destruct (decide (i = j)) as [<-|Hij]; [|rewrite upd1_ne by done; eauto].
    rewrite upd1_eq. rewrite HP in HP'. injection HP' as <- <- <-. repeat eexists.
    rewrite lookup_delete_ne; [done|]. intros ->. apply Hn. left.
  - intros [Ho _] j a1 b1 c1 Hj id'. simpl. destruct (decide (i = j)) as [<-|Hij].
    + rewrite upd1_eq in Hj. injection Hj as <- <- <-. rewrite at_flow_eq. destruct (decide (id = id')) as [<-|Hid].
      * by rewrite !lookup_delete.
      * rewrite !lookup_delete_ne by done. by eapply lt_tasks.
    + rewrite upd1_ne in Hj by done. rewrite at_flow_ne by done. by eapply lt_tasks.
Qed.
Lemma lt_clear P Q l a b c :
  P 0%nat = Some (a, b, c) -> logtrue P Q l ->
  logtrue (upd1 P 0%nat (Some (a, ∅, c))) Q (EvTasksClear 0 :: l).
Proof. intros HP L. eapply lt_ttab; [done|done|done|by intros [_ []]..]. Qed.

(** The table of links of flow [i] changes. *)
Lemma lt_ltab P Q l i e a b c c' :
  P i = Some (a, b, c) -> logtrue P Q l ->
  match e with
  | EvLinkAdd j n => i = j /\ c' = <[n := 0]> c
  | EvLinkSet j n z => i = j /\ c' = <[n := z]> c
  | EvLinkDel j n => i = j /\ c' = delete n c
  | _ => False
  end ->
  logtrue (upd1 P i (Some (a, b, c'))) Q (e :: l).
Proof.
  intros HP [H1 H2 H3 H4 H5 H6 H7 H8 H9] He.
  assert (forall j, (upd1 P i (Some (a, b, c')) j = P j /\ j <> i) \/ (j = i /\ upd1 P i (Some (a, b, c')) j = Some (a, b, c'))) as Hu.
  { intros j. destruct (decide (i = j)) as [<-|Hn]; [right; by rewrite upd1_eq|left; by rewrite upd1_ne]. }
  assert (forall j, status_in (e :: l) j = status_in l j) as E1 by (by destruct e).
  assert (forall j, ltasks (e :: l) j = ltasks l j) as E2 by (by destruct e).
  assert (in_order (e :: l) -> in_order l) as E3 by (by intros []).
  constructor.
  - split; [done|]. by destruct e.
  - intros j z' [?|H]%elem_of_cons; [by destruct e|].
    destruct (Hu j) as [[-> _]|[-> ->]]; [by eapply H2|]. destruct (H2 _ _ H) as (?&?&?&HP'&?). rewrite HP in HP'. injection HP' as <- <- <-. eauto.
  - intros j a' b1 c1. rewrite E1. destruct (Hu j) as [[-> _]|[-> ->]]; [apply H3|]. intros [= <- <- <-]. eauto.
  - intros j a' b1 c1 Hj. destruct (Hu j) as [[Ej Hne]|[-> Ej]]; rewrite Ej in Hj.
    + rewrite <- (H4 _ _ _ _ Hj). destruct e; try done; simpl; destruct He as [<- _]; by rewrite at_flow_ne.
    + injection Hj as <- <- <-. destruct e; try done; simpl; destruct He as [<- ->]; rewrite at_flow_eq; by erewrite H4.
  - intros j e' [->|H]%elem_of_cons Hb.
    + destruct e; simpl in Hb; try done; destruct He as [-> _]; subst; rewrite upd1_eq; eauto.
    + destruct (Hu j) as [[-> _]|[-> ->]]; [by eapply H5|eauto].
  - intros j n z' [<-|H]%elem_of_cons; [destruct He as [-> _]; rewrite upd1_eq; by eauto|]. destruct (Hu j) as [[-> _]|[-> ->]]; [by eapply H6|eauto].
  - intros j Hj. destruct (H7 j) as (e' & He' & Hc); [|exists e'; split; [by right|done]].
    destruct (Hu j) as [[Ej _]|[-> _]]; [by rewrite Ej in Hj|eauto].
  - intros Ho%E3 t j id z Ht Hn. destruct (H8 Ho _ _ _ _ Ht) as (a' & b' & c1 & HP' & Hb'); [intros H; apply Hn; by right|].
    destruct (Hu j) as [[-> _]|[-> ->]]; [by eauto|]. rewrite HP in HP'. injection HP' as <- <- <-. eauto.
  - intros Ho%E3 j a' b1 c1 Hj id. rewrite E2. destruct (Hu j) as [[Ej Hne]|[-> Ej]]; rewrite Ej in Hj; [by eapply H9|].
    injection Hj as <- <- <-. by eapply H9.
Qed.

Lemma lt_sub P Q l i u p h :
  P i = None -> i <> 0%nat -> logtrue P Q l ->
  logtrue (upd1 P i (Some (0, ∅, ∅))) Q (EvSubCreated i u p h :: l).
Proof.
  intros HP Hi [H1 H2 H3 H4 H5 H6 H7 H8 H9].
  assert (forall j, is_Some (P j) -> i <> j) as Hne by (intros j [v Hv] ->; congruence).
  constructor.
  - done.
  - intros j z' [?|H]%elem_of_cons; [done|]. destruct (H2 _ _ H) as (?&?&?&HP'&?). rewrite upd1_ne; eauto.
  - intros j a b c. destruct (decide (i = j)) as [<-|Hn].
    + rewrite upd1_eq. intros [= <- <- <-]. simpl. by rewrite decide_True.
    + rewrite upd1_ne by done. intros Hj. simpl. rewrite decide_False by done. by eapply H3.
  - intros j a b c. simpl. destruct (decide (i = j)) as [<-|Hn].
    + rewrite upd1_eq, at_flow_eq. by intros [= <- <- <-].
    + rewrite upd1_ne, at_flow_ne by done. intros Hj. by eapply H4.
  - intros j e' [->|H]%elem_of_cons Hb; [simpl in Hb; subst; rewrite upd1_eq; by eauto|].
    pose proof (H5 _ _ H Hb) as Hj. by rewrite upd1_ne by auto.
  - intros j n z' [?|H]%elem_of_cons; [done|]. pose proof (H6 _ _ _ H). by rewrite upd1_ne by auto.
  - intros j Hj. destruct (decide (i = j)) as [<-|Hn]; [eexists; split; [left|done]|]. rewrite upd1_ne in Hj by done.
    destruct (H7 j Hj) as (e' & He' & Hc). exists e'. split; [by right|done].
  - intros [Ho _] t j id z Ht Hn. destruct (H8 Ho _ _ _ _ Ht) as (a' & b' & c1 & HP' & Hb'); [intros H; apply Hn; by right|].
    rewrite upd1_ne; [eauto|]. by apply Hne; eauto.
  - intros [Ho _] j a b c. simpl. destruct (decide (i = j)) as [<-|Hn].
    + rewrite upd1_eq, at_flow_eq. intros [= <- <- <-] id. by rewrite !lookup_empty.
    + rewrite upd1_ne, at_flow_ne by done. intros Hj. by eapply H9.
Qed.

Lemma lt_init d uri : logtrue (pi (init_st d uri)) (pt (init_st d uri)) (s_log (init_st d uri)).
Proof.
  assert (forall i a b c, pi (init_st d uri) i = Some (a, b, c) -> i = 0%nat /\ a = 0 /\ b = ∅ /\ c = ∅) as H.
  { intros i a b c. unfold pi. simpl. intros Hi. destruct (decide (i = 0%nat)) as [->|Hn].
    - rewrite lookup_singleton in Hi. by injection Hi as <- <- <-.
    - by rewrite lookup_singleton_ne in Hi. }
  constructor.
  - done.
  - intros i z Hi. by apply elem_of_list_singleton in Hi.
  - intros i a b c Hi. by destruct (H _ _ _ _ Hi) as (-> & -> & -> & ->).
  - intros i a b c Hi. by destruct (H _ _ _ _ Hi) as (-> & -> & -> & ->).
  - intros i e ->%elem_of_list_singleton Ha. simpl in Ha. subst. unfold pi. simpl. rewrite lookup_singleton. eauto.
  - intros i n z Hi. by apply elem_of_list_singleton in Hi.
  - intros i [[[a b] c] Hi]. destruct (H _ _ _ _ Hi) as (-> & _). exists EvFlowCreated. split; [left|done].
  - intros _ t i id z Ht. unfold pt in Ht. simpl in Ht. by rewrite lookup_empty in Ht.
  - intros _ i a b c Hi id. destruct (H _ _ _ _ Hi) as (-> & -> & -> & ->). by rewrite !lookup_empty.
Qed.

Section Log_true.
  Local Set Default Proof Using "Type*".
  Context (E : env) (d : defn) (uri : string).
  Notation reach := (reach E d uri).

  Definition ltrue (s : st) : Prop := logtrue (pi s) (pt s) (s_log s).
  Lemma fresh_reg s : fresh s -> reg_ok (pi s) (pt s).
  Proof.
    intros (_ & _ & F & _) i a b c id t Hi Hb. unfold pi in Hi. destruct (s_insts s !! i) as [y|] eqn:Hy; [|done].
    injection Hi as <- <- <-. destruct (F i id t) as (tk & (x & Hx & Hi & Htk) & Hid); [by exists y|].
    exists (ti_status x). unfold pt. rewrite Hx. simpl. by rewrite Hi, Htk, Hid.
  Qed.
  Lemma pi_inst i f s j :
    pi (p_inst i f s) j = if decide (i = j) then (fun y => (i_status y, i_tasks y, i_links y)) <$> (f <$> s_insts s !! j) else pi s j.
  Proof. unfold pi, p_inst. simpl. case_decide; [subst; by rewrite lookup_alter|by rewrite lookup_alter_ne]. Qed.
  Lemma pt_ti t f s j :
    pt (p_ti t f s) j = if decide (t = j) then (fun x => (ti_inst x, t_id (ti_task x), ti_status x)) <$> (f <$> s_tis s !! j) else pt s j.
  Proof. unfold pt, p_ti. simpl. case_decide; [subst; by rewrite lookup_alter|by rewrite lookup_alter_ne]. Qed.
  Lemma pi_same_inst i f s j :
    (forall y, i_status (f y) = i_status y /\ i_tasks (f y) = i_tasks y /\ i_links (f y) = i_links y) ->
    pi (p_inst i f s) j = pi s j.
  Proof.
    intros Hf. rewrite pi_inst. case_decide; [subst|done]. unfold pi. destruct (s_insts s !! j) as [y|]; simpl; [|done].
    destruct (Hf y) as (-> & -> & ->). done.
  Qed.
  Lemma pt_same_ti t f s j :
    (forall x, ti_inst (f x) = ti_inst x /\ ti_task (f x) = ti_task x /\ ti_status (f x) = ti_status x) ->
    pt (p_ti t f s) j = pt s j.
  Proof.
    intros Hf. rewrite pt_ti. case_decide; [subst|done]. unfold pt. destruct (s_tis s !! j) as [y|]; simpl; [|done].
    destruct (Hf y) as (-> & -> & ->). done.
  Qed.
  Lemma pi_some s i y : s_insts s !! i = Some y -> pi s i = Some (i_status y, i_tasks y, i_links y).
  Proof. intros H. unfold pi. by rewrite H. Qed.

  Lemma lt_set tr i m s y : s_insts s !! i = Some y -> ltrue s -> ltrue (p_set tr i m s).
  Proof.
    intros Hy L. unfold ltrue. eapply lt_ext; [..|apply (lt_mute (pi s) (pt s) (s_log s) (EvSet i m tr))].
    - intros j. by apply (pi_same_inst i (fun x => set_i_attrs (m ∪ i_attrs x) x)).
    - done.
    - done.
    - intros j Hj. simpl in Hj. subst. rewrite (pi_some _ _ _ Hy). eauto.
    - done.
    - done.
  Qed.
  Lemma lt_fst i z s y : z <> 0 -> s_insts s !! i = Some y -> ltrue s -> ltrue (p_fstat i z s).
  Proof.
    intros Hz Hy L. unfold ltrue. eapply lt_ext; [..|by apply (lt_fstat (pi s) (pt s) (s_log s) i z _ _ _ (pi_some _ _ _ Hy))].
    - intros j. unfold p_fstat, upd1. change (pi (p_inst i (set_i_status z) s) j = if decide (i = j) then Some (z, i_tasks y, i_links y) else pi s j).
      rewrite pi_inst. case_decide; [subst|done]. by rewrite Hy.
    - done.
  Qed.
  Lemma lt_tst t x z s : fresh s -> (exists y, s_insts s !! ti_inst x = Some y) -> s_tis s !! t = Some x -> ltrue s -> ltrue (p_tstat t x z s).
  Proof.
    intros F [y Hy] Hx L. unfold ltrue.
    eapply lt_ext; [..|eapply (lt_tstat (pi s) (pt s) (s_log s) (ti_inst x) (t_id (ti_task x)) z (ti_status x) t); [by left|..]].
    - done.
    - intros j. unfold p_tstat, upd1. change (pt (p_ti t (set_ti_status z) s) j = if decide (t = j) then Some (ti_inst x, t_id (ti_task x), z) else pt s j).
      rewrite pt_ti. case_decide; [subst|done]. by rewrite Hx.
    - unfold pt. by rewrite Hx.
    - rewrite (pi_some _ _ _ Hy). eauto.
    - by apply fresh_reg.
    - done.
  Qed.
  Lemma lt_tab i s y f g e :
    s_insts s !! i = Some y -> (forall y, i_status (f y) = i_status y /\ i_tasks (f y) = g (i_tasks y) /\ i_links (f y) = i_links y) ->
    logtrue (upd1 (pi s) i (Some (i_status y, g (i_tasks y), i_links y))) (pt s) (e :: s_log s) -> ltrue (p_log e (p_inst i f s)).
  Proof.
    intros Hy Hf L. unfold ltrue. eapply lt_ext; [| |exact L]; [|done]. intros j. unfold upd1.
    change (pi (p_log e (p_inst i f s)) j) with (pi (p_inst i f s) j). rewrite pi_inst. case_decide; [subst|done].
    rewrite Hy. simpl. by destruct (Hf y) as (-> & -> & ->).
  Qed.
  Lemma lt_ltb i s y f g e :
    s_insts s !! i = Some y -> (forall y, i_status (f y) = i_status y /\ i_tasks (f y) = i_tasks y /\ i_links (f y) = g (i_links y)) ->
    logtrue (upd1 (pi s) i (Some (i_status y, i_tasks y, g (i_links y)))) (pt s) (e :: s_log s) -> ltrue (p_log e (p_inst i f s)).
  Proof.
    intros Hy Hf L. unfold ltrue. eapply lt_ext; [| |exact L]; [|done]. intros j. unfold upd1.
    change (pi (p_log e (p_inst i f s)) j) with (pi (p_inst i f s) j). rewrite pi_inst. case_decide; [subst|done].
    rewrite Hy. simpl. by destruct (Hf y) as (-> & -> & ->).
  Qed.

  Lemma inv_lt c s : reach c s -> ltrue s.
  Proof.
    intros R. pose proof (inv_task E d uri) as IT. revert c s R.
    apply (reach_inv E d uri (fun _ s => ltrue s)); [apply lt_init|].
    intros c s c' s' R F L St.
    assert (forall t x, s_tis s !! t = Some x -> exists y, s_insts s !! ti_inst x = Some y) as HT.
    { intros t x Hx. destruct (IT c s R t (ti_inst x) (ti_task x)) as (d' & h & (y & Hy & _) & _); [by exists x|]. by exists y. }
    assert (forall i z, logged s (EvFlowStatus i z) -> status_in (s_log s) i <> 0 /\ is_Some (pi s i)) as HS.
    { intros i z Hi. destruct (lt_started _ _ _ L _ _ Hi) as (a & b & c0 & Hp & Ha). by rewrite (lt_status _ _ _ L _ _ _ _ Hp), Hp. }
    destruct St as [c s s' St| |c s w t q x y Hq Hx Hy Hst|c s m y Hy|c s e0 He0].
    - destruct St.
      + done.
      + done.
      + apply lt_mute; [by destruct e|by destruct e|by destruct e|done].
      + by apply lt_mute.
      + by apply lt_mute.
      + by apply lt_mute.
      + by apply lt_mute.
      + by eapply lt_set.
      + eapply lt_ext; [done| |exact L]. intros j. by apply pt_same_ti.
      + eapply lt_ext; [done| |exact L]. intros j. by apply pt_same_ti.
      + eapply lt_ext; [done| |exact L]. intros j. by apply pt_same_ti.
      + eapply lt_ext; [|done|exact L]. intros j. apply pi_same_inst. intros y. by destruct (H y) as (_&_&->&_&_&->&->&_).
      + eapply lt_ext; [|done|exact L]. intros j. by apply pi_same_inst.
      + eapply lt_ext; [|done|exact L]. intros j. by apply pi_same_inst.
      + apply (lt_tab 0 s y0 (set_i_tasks ∅) (fun _ => ∅) (EvTasksClear 0)); [done|done|]. eapply lt_clear; [by apply pi_some|done].
      + by eapply lt_fst.
      + by eapply lt_fst.
      + by eapply lt_fst.
      + destruct (HS _ _ H) as [H1 H2]. apply lt_mute; [done|by intros i ->|done|done].
      + destruct (HS _ _ H1) as [H2 H3]. apply lt_mute; [done|by intros j ->|done|done].
      + done.
      + unfold ltrue. eapply lt_ext; [..|eapply (lt_sub (pi s) (pt s) (s_log s) (S (s_sfctr s)) uri0 (ti_inst x) (t_id (ti_task x))); [|done|exact L]].
        * intros j. unfold pi, upd1. simpl. case_decide; [subst; by rewrite lookup_insert|by rewrite lookup_insert_ne].
        * done.
        * unfold pi. by rewrite H2.
      + unfold ltrue. eapply lt_ext; [..|eapply (lt_tnew (pi s) (pt s) (s_log s) i (t_id tk) (s_nti s)); [by apply pi_some|done| |by apply fresh_reg|exact L]].
        * intros j. unfold upd1. change (pi (p_inst i (fun x => set_i_tasks (<[t_id tk := s_nti s]> (i_tasks x)) x) s) j =
            if decide (i = j) then Some (i_status y, <[t_id tk := s_nti s]> (i_tasks y), i_links y) else pi s j).
          rewrite pi_inst. case_decide; [subst; by rewrite H|done].
        * intros j. unfold pt, upd1. simpl. case_decide; [subst; by rewrite lookup_insert|by rewrite lookup_insert_ne].
        * unfold pt. by rewrite H4.
      + eapply lt_tst; eauto.
      + eapply lt_tst; eauto.
      + eapply lt_tst; eauto.
      + eapply lt_tst; eauto.
      + eapply lt_tst; eauto.
      + unfold ltrue. destruct (HT _ _ H0) as [y Hy].
        eapply lt_ext; [..|eapply (lt_tstat (pi s) (pt s) (s_log s) (ti_inst x) (t_id (ti_task x)) (ti_status x) (ti_status x) t); [by right|..]].
        * done.
        * intros j. unfold upd1. case_decide; [subst; unfold pt; simpl; by rewrite H0|done].
        * unfold pt. by rewrite H0.
        * rewrite (pi_some _ _ _ Hy). eauto.
        * by apply fresh_reg.
        * done.
      + match goal with |- ltrue (p_lnew ?i ?l s) => apply (lt_ltb i s y _ (insert (l_id l) 0)) end; [done|done|].
        eapply lt_ltab; [by apply pi_some|done|done].
      + match goal with |- ltrue (p_lset ?i ?l ?z s) => apply (lt_ltb i s y _ (insert (l_id l) z)) end; [done|done|].
        eapply lt_ltab; [by apply pi_some|done|done].
      + apply lt_mute; [done|intros j ->; by eapply (lt_lset _ _ _ L)|done|done].
      + match goal with |- ltrue (p_tdel ?i ?id s) => apply (lt_tab i s y _ (delete id)) end; [done|done|].
        eapply lt_tdel; [by apply pi_some|done].
      + match goal with |- ltrue (p_ldel ?i ?l s) => apply (lt_ltb i s y _ (delete (l_id l))) end; [done|done|].
        eapply lt_ltab; [by apply pi_some|done|done].
      + by apply (lt_mute (pi s) (pt s) (s_log s)).
    - done.
    - by apply (lt_mute (pi s) (pt s) (s_log s)).
    - by eapply lt_set.
    - apply lt_mute; [by destruct e0|by destruct e0|by destruct e0|done].
  Qed.

  Definition ladd (l : list event) (i n : nat) : bool :=
    existsb (fun e => match e with EvLinkAdd j m => bool_decide (j = i /\ m = n) | _ => false end) l.
  Definition ldel (l : list event) (i n : nat) : bool :=
    existsb (fun e => match e with EvLinkDel j m => bool_decide (j = i /\ m = n) | _ => false end) l.
  Lemma ladd_in l i n : ladd l i n = true <-> EvLinkAdd i n ∈ l.
  Proof.
    unfold ladd. rewrite existsb_exists. split.
    - intros (e & He%elem_of_list_In & Hb). destruct e; try done. apply bool_decide_eq_true in Hb as [-> ->]. done.
    - intros H. exists (EvLinkAdd i n). split; [by apply elem_of_list_In|]. by apply bool_decide_eq_true.
  Qed.
  Lemma ldel_in l i n : ldel l i n = true <-> EvLinkDel i n ∈ l.
  Proof.
    unfold ldel. rewrite existsb_exists. split.
    - intros (e & He%elem_of_list_In & Hb). destruct e; try done. apply bool_decide_eq_true in Hb as [-> ->]. done.
    - intros H. exists (EvLinkDel i n). split; [by apply elem_of_list_In|]. by apply bool_decide_eq_true.
  Qed.
  Definition ltab (told : bool) (l : list event) (i n : nat) : Prop :=
    (EvLinkDel i n ∈ l -> llinks (negb told) l i !! n = None) /\
    (EvLinkDel i n ∉ l -> llinks (negb told) l i !! n =
       match link_given told l i n with
       | Some z => Some z
       | None => if ladd l i n then Some 0 else None
       end).
  Lemma link_given_in told l i n z : link_given told l i n = Some z ->
    if told then EvLinkUpd i n z ∈ l else EvLinkSet i n z ∈ l.
  Proof.
    induction l as [|e l IH]; [done|]. destruct told.
    - destruct e; simpl; intros H; try (right; by apply IH). case_decide as Hd; [|right; by apply IH].
      destruct Hd as [-> ->]. injection H as ->. left.
    - destruct e; simpl; intros H; try (right; by apply IH). case_decide as Hd; [|right; by apply IH].
      destruct Hd as [-> ->]. injection H as ->. left.
  Qed.
  Lemma link_given_some (told : bool) l i n z :
    (if told then EvLinkUpd i n z ∈ l else EvLinkSet i n z ∈ l) -> is_Some (link_given told l i n).
  Proof.
    induction l as [|e l IH]; [by destruct told; intros ?%elem_of_nil|]. destruct told.
    - intros [<-|H]%elem_of_cons; simpl; [rewrite decide_True by done; by eauto|]. destruct e; try by apply IH. case_decide; [eauto|by apply IH].
    - intros [<-|H]%elem_of_cons; simpl; [rewrite decide_True by done; by eauto|]. destruct e; try by apply IH. case_decide; [eauto|by apply IH].
  Qed.
  Definition ltabs (s : st) : Prop :=
    (forall i n z, EvLinkUpd i n z ∈ s_log s -> EvLinkSet i n z ∈ s_log s) /\
    (in_order (s_log s) -> forall told i n, ltab told (s_log s) i n).
  Lemma ltab_other told e l i n :
    ltab told l i n ->
    match e with
    | EvLinkAdd j m | EvLinkDel j m => j <> i \/ m <> n
    | EvLinkSet j m _ => told = true \/ j <> i \/ m <> n
    | EvLinkUpd j m _ => told = false \/ j <> i \/ m <> n
    | EvSubCreated j _ _ _ => j <> i
    | _ => True
    end -> ltab told (e :: l) i n.
  Proof.
    intros [H1 H2] He. unfold ltab.
    assert (llinks (negb told) (e :: l) i !! n = llinks (negb told) l i !! n) as ->.
    { destruct e; try done; simpl; try (by rewrite at_flow_ne).
      - destruct (decide (i0 = i)) as [->|]; [rewrite at_flow_eq, lookup_insert_ne; naive_solver|by rewrite at_flow_ne].
      - destruct told; simpl; [done|]. destruct (decide (i0 = i)) as [->|]; [rewrite at_flow_eq, lookup_insert_ne; naive_solver|by rewrite at_flow_ne].
      - destruct told; simpl; [|done]. destruct (decide (i0 = i)) as [->|]; [rewrite at_flow_eq, lookup_insert_ne; naive_solver|by rewrite at_flow_ne].
      - destruct (decide (i0 = i)) as [->|]; [rewrite at_flow_eq, lookup_delete_ne; naive_solver|by rewrite at_flow_ne]. }
    assert (link_given told (e :: l) i n = link_given told l i n) as ->.
    { destruct e; try done; simpl.
      - destruct told; [done|]. rewrite decide_False; [done|]. naive_solver.
      - destruct told; [|done]. rewrite decide_False; [done|]. naive_solver. }
    assert (EvLinkDel i n ∈ e :: l <-> EvLinkDel i n ∈ l) as Hd.
    { split; [|by right]. intros [<-|H]%elem_of_cons; [naive_solver|done]. }
    assert (EvLinkAdd i n ∈ e :: l <-> EvLinkAdd i n ∈ l) as Hadd.
    { split; [|by right]. intros [<-|H]%elem_of_cons; [naive_solver|done]. }
    split; [intros H; apply H1; by apply Hd|]. intros H. rewrite H2 by (intros H'; apply H; by apply Hd).
    destruct (link_given told l i n); [done|]. replace (ladd (e :: l) i n) with (ladd l i n); [done|].
    apply eq_true_iff_eq. by rewrite !ladd_in.
  Qed.
  Lemma inv_ltabs c s : reach c s -> ltabs s.
  Proof.
    pose proof (fun c s H => inv_lt c s H) as IL. revert c s.
    apply (reach_inv E d uri (fun _ s => ltabs s)).
    { split; [intros i n z H; by apply elem_of_list_singleton in H|]. intros _ told i n. split.
      - intros H. by apply elem_of_list_singleton in H.
      - intros _. simpl. by rewrite lookup_empty. }
    intros c s c' s' R F [IH1 IH2] St. destruct (rstep_log _ _ _ _ _ St) as [Hl|[e Hl]].
    { unfold ltabs. by rewrite Hl. }
    pose proof (rstep_ev _ _ _ _ _ _ St Hl) as Hev. pose proof (IL c s R) as L. clear IL. split.
    { rewrite Hl. intros i n z [<-|H]%elem_of_cons; [|right; by apply IH1]. right. by destruct Hev. }
    rewrite Hl. intros [Ho Hoe] told i n. specialize (IH2 Ho told i n) as IH.
    destruct e; try (by apply ltab_other).
    - destruct (decide (i0 = i)) as [->|Hn]; [|by apply ltab_other].
      destruct Hev as (t & x & d' & n' & _ & _ & _ & _ & _ & _ & _ & _ & Hno).
      assert (forall P : Prop, is_Some (pi s i) -> P) as Habs by (intros P [v Hv]; unfold pi in Hv; by rewrite Hno in Hv).
      split.
      + simpl. by rewrite at_flow_eq, lookup_empty.
      + intros _. simpl. rewrite at_flow_eq, lookup_empty. destruct (link_given told (s_log s) i n) as [z|] eqn:Hg.
        * apply link_given_in in Hg. apply Habs. destruct told; [by eapply (lt_about _ _ _ L)|by eapply (lt_lset _ _ _ L)].
        * destruct (ladd (s_log s) i n) eqn:H; [|done]. apply ladd_in in H. apply Habs. by eapply (lt_about _ _ _ L).
    - destruct (decide (i0 <> i \/ l <> n)) as [Hn|Hn]; [by apply ltab_other|].
      assert (i0 = i /\ l = n) as [-> ->] by (split; apply dec_stable; naive_solver). clear Hn.
      simpl in Hoe. destruct Hev as (t & x & y & k & _ & _ & Hy & _ & Hno & _).
      pose proof (lt_links _ _ _ L _ _ _ _ (pi_some _ _ _ Hy)) as Hll.
      assert (link_given false (s_log s) i n = None) as Hg.
      { destruct (IH2 Ho false i n) as [_ H]. specialize (H Hoe). simpl in H. rewrite Hll, Hno in H.
        destruct (link_given false (s_log s) i n); done. }
      assert (link_given told (s_log s) i n = None) as Hg'.
      { destruct told; [|done]. destruct (link_given true (s_log s) i n) as [z|] eqn:Ht; [|done].
        apply link_given_in in Ht. apply IH1 in Ht. destruct (link_given_some false _ _ _ _ Ht) as [z' Hz]. congruence. }
      split; [intros [?|?]%elem_of_cons; done|]. intros _. simpl. rewrite at_flow_eq, lookup_insert, Hg'. by rewrite bool_decide_true.
    - destruct (decide (told = true \/ i0 <> i \/ l <> n)) as [Hn|Hn]; [by apply ltab_other|].
      destruct told; [naive_solver|]. assert (i0 = i /\ l = n) as [-> ->] by (split; apply dec_stable; naive_solver).
      simpl in Hoe. split; [intros [?|?]%elem_of_cons; done|]. intros _. simpl. by rewrite at_flow_eq, lookup_insert, decide_True.
    - destruct (decide (told = false \/ i0 <> i \/ l <> n)) as [Hn|Hn]; [by apply ltab_other|].
      destruct told; [|naive_solver]. assert (i0 = i /\ l = n) as [-> ->] by (split; apply dec_stable; naive_solver).
      simpl in Hoe. split; [intros [?|?]%elem_of_cons; done|]. intros _. simpl. by rewrite at_flow_eq, lookup_insert, decide_True.
    - destruct (decide (i0 <> i \/ l <> n)) as [Hn|Hn]; [by apply ltab_other|].
      assert (i0 = i /\ l = n) as [-> ->] by (split; apply dec_stable; naive_solver). clear Hn.
      split; [|intros H; destruct H; left]. intros _. simpl. by rewrite at_flow_eq, lookup_delete.
  Qed.

  Lemma replays db s c : reach c s -> in_order (s_log s) -> links_reported s ->
    replay (recorded db 0 uri s ++ [tk_step (tracked db 0 uri (s_log s)).1]) = live s.
  Proof.
    intros R Ho Hr. pose proof (inv_lt c s R) as L. destruct (inv_ltabs c s R) as [_ LT]. specialize (LT Ho).
    apply map_eq. intros i.
    assert (replay (recorded db 0 uri s ++ [tk_step (tracked db 0 uri (s_log s)).1]) !! i = shown (tracked db 0 uri (s_log s)) i) as ->.
    { unfold recorded, shown, replay. by rewrite foldl_app. }
    pose proof (tracked_shows db uri _ Ho (lt_proper _ _ _ L) i) as Hs.
    destruct (tracked_some db uri _ i Ho) as [T1 T2]. unfold live. rewrite lookup_fmap.
    destruct (s_insts s !! i) as [y|] eqn:Hy.
    - pose proof (pi_some _ _ _ Hy) as Hp. destruct T1 as [v Hv]; [apply (lt_created _ _ _ L); rewrite Hp; by eauto|].
      rewrite Hv in *. simpl in *. f_equal. rewrite Hs. unfold lview. f_equal.
      + by eapply lt_status.
      + apply map_eq. intros id. rewrite lookup_omap. rewrite (lt_tasks _ _ _ L Ho _ _ _ _ Hp id).
        destruct (i_tasks y !! id) as [t|]; simpl; [|done]. unfold pt. by destruct (s_tis s !! t).
      + rewrite <- (lt_links _ _ _ L _ _ _ _ Hp). apply map_eq. intros n.
        destruct (LT true i n) as [A1 A2], (LT false i n) as [B1 B2]. simpl in *.
        destruct (ldel (s_log s) i n) eqn:Hd; [apply ldel_in in Hd; by rewrite A1, B1|].
        assert (EvLinkDel i n ∉ s_log s) as Hd' by (rewrite <- ldel_in; by rewrite Hd). by rewrite A2, B2, Hr.
    - destruct (shown (tracked db 0 uri (s_log s)) i) as [v|] eqn:Hv; [|done].
      destruct T2 as (e & He & Ha); [by eauto|]. destruct (lt_about _ _ _ L _ _ He Ha) as [p Hp].
      unfold pi in Hp. by rewrite Hy in Hp.
  Qed.
End Log_true.
