(** The course of a whole run of an acyclic flow of plain tasks: an invariant (proofs; no Go counterpart). *)
From Verif Require Export Close.
Local Open Scope Z_scope.

(** Relation between earlier and later elements. *)
Fixpoint opairs {A} (R : A -> A -> Prop) (l : list A) : Prop :=
  match l with [] => True | a :: l => (forall b, b ∈ l -> R a b) /\ opairs R l end.
Lemma opairs_app {A} (R : A -> A -> Prop) l k :
  opairs R (l ++ k) <-> opairs R l /\ opairs R k /\ forall a b, a ∈ l -> b ∈ k -> R a b.
Proof.
  induction l as [|a l IH]; cbn.
  - split; [intros H; split_and!; [done..|]; by intros a b ?%elem_of_nil|by intros (_ & H & _)].
  - rewrite IH. split.
    + intros (H1 & H2 & H3 & H4). split_and!; [|done|done|].
      * intros b Hb. apply H1. apply elem_of_app. by left.
      * intros a' b [->|Ha]%elem_of_cons Hb; [|by apply H4]. apply H1. apply elem_of_app. by right.
    + intros ((H1 & H2) & H3 & H4). split_and!; [|done|done|].
      * intros b [Hb|Hb]%elem_of_app; [by apply H1|]. apply H4; [left|done].
      * intros a' b Ha Hb. apply H4; [by right|done].
Qed.
Lemma opairs_mono {A} (R S : A -> A -> Prop) l : (forall a b, a ∈ l -> b ∈ l -> R a b -> S a b) -> opairs R l -> opairs S l.
Proof.
  induction l as [|a l IH]; cbn; [done|]. intros H [H1 H2]. split.
  - intros b Hb. apply H; [left|by right|by apply H1].
  - apply IH; [|done]. intros b c Hb Hc. apply H; by right.
Qed.
Lemma opairs_index {A} (R : A -> A -> Prop) l :
  (forall a x b y c, l = a ++ x :: b ++ y :: c -> R x y) -> opairs R l.
Proof.
  induction l as [|z l IH]; [done|]. intros H. split.
  - intros b (l1 & l2 & ->)%elem_of_list_split. by apply (H [] z l1 b l2).
  - apply IH. intros a x b y c ->. by apply (H (z :: a) x b y c).
Qed.

(** The activities that were called, in terms of the log. *)
Lemma evaluated_in s i id : (i, id) ∈ evaluations s <-> exists ins it, EvAct i id ins it ∈ s_log s.
Proof.
  unfold evaluations, trace. rewrite elem_of_list_omap. setoid_rewrite elem_of_list_In. setoid_rewrite <- in_rev. split.
  - intros (e & He & H). destruct e; try done. injection H as -> ->. eauto.
  - intros (ins & it & H). eexists. split; [exact H|]. done.
Qed.
Lemma evaluations_eq s s' l : s_log s' = l ++ s_log s -> (forall i id ins it, EvAct i id ins it ∉ l) -> evaluations s' = evaluations s.
Proof.
  intros Hl Hn. unfold evaluations, trace. rewrite Hl, rev_app_distr, omap_app.
  assert (forall l, (forall i id ins it, EvAct i id ins it ∉ l) -> omap (fun e => match e with EvAct i id _ _ => Some (i, id) | _ => None end) l = []) as H.
  { clear. induction l as [|e l IH]; intros H; [done|]. cbn. destruct e; try (apply IH; intros; set_solver). exfalso. eapply H. left. }
  rewrite (H (rev l)); [by rewrite app_nil_r|]. intros i id ins it. rewrite elem_of_list_In, <- in_rev, <- elem_of_list_In. apply Hn.
Qed.

(** The main section of a graph. *)
Section Graph.
  Context (d : defn) (G : graph_ok d).
  Local Set Default Proof Using "Type*".
  Lemma g_tasks tk : tk ∈ d_tasks d -> tk ∈ all_tasks d.
  Proof. intros H. apply elem_of_app. by left. Qed.
  Lemma g_links l : l ∈ d_links d -> l ∈ all_links d.
  Proof. intros H. apply elem_of_app. by left. Qed.
  Lemma g_main l : l ∈ all_links d -> l_eh l = false -> l ∈ d_links d.
  Proof.
    intros [H|H]%elem_of_app He; [done|]. destruct (d_eh d) as [h|] eqn:Hh; [|by apply elem_of_nil in H].
    pose proof (so_leh _ _ _ _ (proj2 G h Hh) l H). congruence.
  Qed.
  Lemma g_eh tk : tk ∈ d_tasks d -> t_eh tk = false.
  Proof. intros H. by apply (so_eh _ _ _ _ (proj1 G)). Qed.
  Lemma g_leh l : l ∈ d_links d -> l_eh l = false.
  Proof. intros H. by apply (so_leh _ _ _ _ (proj1 G)). Qed.
  Lemma g_to tk l : tk ∈ d_tasks d -> l ∈ t_to tk <-> l ∈ d_links d /\ l_from l = t_id tk.
  Proof.
    intros Htk. rewrite (graph_to d) by (done || by apply g_tasks). rewrite (g_eh tk Htk).
    split; [intros (H1 & H2 & H3); split; [by apply g_main|done]|]. intros [H1 H2]. split_and!; [by apply g_links|done|]. by apply g_leh.
  Qed.
  Lemma g_from tk l : tk ∈ d_tasks d -> l ∈ t_from tk <-> l ∈ d_links d /\ l_to l = t_id tk.
  Proof.
    intros Htk. rewrite (graph_from d) by (done || by apply g_tasks). rewrite (g_eh tk Htk).
    split; [intros (H1 & H2 & H3); split; [by apply g_main|done]|]. intros [H1 H2]. split_and!; [by apply g_links|done|]. by apply g_leh.
  Qed.
  Lemma g_task_inj tk tk' : tk ∈ d_tasks d -> tk' ∈ d_tasks d -> t_id tk = t_id tk' -> tk = tk'.
  Proof. intros H1 H2 H. apply (graph_task_inj d); [done|by apply g_tasks..|done|]. by rewrite !g_eh. Qed.
  Lemma g_link_inj l l' : l ∈ d_links d -> l' ∈ d_links d -> l_id l = l_id l' -> l = l'.
  Proof. intros H1 H2 H. apply (graph_link_inj d); [done|by apply g_links..|done]. Qed.
  Lemma g_target l : l ∈ d_links d -> exists tk, link_target d l = Some tk /\ tk ∈ d_tasks d /\ t_id tk = l_to l.
  Proof.
    intros H. destruct (so_ends _ _ _ _ (proj1 G) l H) as [_ (b & Hid & Hb)%elem_of_list_fmap].
    exists b. split_and!; [|done|done]. unfold link_target. rewrite (g_leh l H). unfold get_task. rewrite Hid.
    by eapply find_task_unique; [apply (proj1 G)|].
  Qed.
  Lemma g_target_is l tk : l ∈ d_links d -> link_target d l = Some tk -> tk ∈ d_tasks d /\ t_id tk = l_to l.
  Proof. intros H H1. destruct (g_target l H) as (tk' & H2 & H3 & H4). rewrite H1 in H2. by injection H2 as ->. Qed.
  Lemma g_source l : l ∈ d_links d -> exists tk, tk ∈ d_tasks d /\ t_id tk = l_from l.
  Proof.
    intros H. destruct (so_ends _ _ _ _ (proj1 G) l H) as [(a & Hid & Ha)%elem_of_list_fmap _]. eauto.
  Qed.
  Lemma g_link_nodup : NoDup (l_id <$> d_links d).
  Proof. rewrite (so_num _ _ _ _ (proj1 G)). apply NoDup_seq. Qed.
  Lemma g_to_nodup tk : tk ∈ d_tasks d -> NoDup (l_id <$> t_to tk).
  Proof.
    intros H. rewrite (so_to _ _ _ _ (proj1 G) tk H). pose proof g_link_nodup as N. revert N. generalize (d_links d). clear.
    induction l as [|l ls IH]; cbn [List.filter]; [done|]. rewrite fmap_cons, NoDup_cons. intros [N1 N2]. destruct (_ =? _)%string; [|by apply IH].
    rewrite fmap_cons, NoDup_cons. split; [|by apply IH]. intros (l' & He & Hl')%elem_of_list_fmap.
    apply elem_of_list_In, List.filter_In in Hl' as [Hl' _]. apply N1. rewrite He. apply elem_of_list_fmap_1. by apply elem_of_list_In.
  Qed.
  Lemma g_to_id tk l : tk ∈ d_tasks d -> l ∈ d_links d -> l_id l ∈ l_id <$> t_to tk <-> l_from l = t_id tk.
  Proof.
    intros H Hl. rewrite elem_of_list_fmap. split.
    - intros (l' & He & Hl'). apply (g_to tk l' H) in Hl' as [H1 H2]. by rewrite (g_link_inj l l' Hl H1 He).
    - intros Hf. exists l. split; [done|]. by apply g_to.
  Qed.

  Definition above (a b : string) : Prop := rtc (edge d) (false, a) (false, b).
  Lemma above_link l : l ∈ d_links d -> above (l_from l) (l_to l).
  Proof. intros H. apply rtc_once. exists l. cbn. rewrite (g_leh l H). pose proof (g_links l H). done. Qed.
  Context (AC : acyclic d).
  Lemma above_rank : exists r : string -> nat, forall l, l ∈ d_links d -> (r (l_from l) < r (l_to l))%nat.
  Proof.
    destruct AC as [rank Hr]. exists (rank false). intros l Hl. specialize (Hr l (g_links l Hl)). by rewrite (g_leh l Hl) in Hr.
  Qed.
  Lemma above_le (r : string -> nat) : (forall l, l ∈ d_links d -> (r (l_from l) < r (l_to l))%nat) ->
    forall a b, above a b -> a = b \/ (r a < r b)%nat.
  Proof.
    intros Hr. assert (forall p q, rtc (edge d) p q -> p.1 = false -> p = q \/ (r p.2 < r q.2)%nat) as H.
    { induction 1 as [|p q q' (l & Hl & H0 & H1 & H2 & H3) _ IH]; [by left|]. intros Hp. right. specialize (Hr l (g_main l Hl ltac:(congruence))).
      rewrite H1, H3 in Hr. destruct IH as [<-|IH]; [congruence|done|lia]. }
    intros a b Hab. destruct (H _ _ Hab eq_refl) as [[= ->]|?]; [by left|by right].
  Qed.
  Lemma above_not_back l : l ∈ d_links d -> ~ above (l_to l) (l_from l).
  Proof.
    intros Hl Ha. destruct above_rank as [r Hr]. pose proof (Hr l Hl) as H. destruct (above_le r Hr _ _ Ha) as [He|?]; [rewrite He in H; lia|lia].
  Qed.
End Graph.

(** ** The invariant *)
(** What is assumed about activities: none waits; none calls Return. *)
Record mode := mk_mode { waits_not :> Prop; returns_not : Prop }.

Section Inv.
  Context (d : defn) (sync : mode) (calls_ok : Prop).

  (** The tasks before a task have ended; the task is reached. *)
  Definition ready (F : gmap string Z) (tk : task) : Prop := forall l, l ∈ t_from tk -> is_Some (F !! l_from l).
  Definition live (V : gmap nat Z) (tk : task) : Prop := t_from tk = [] \/ exists l, l ∈ t_from tk /\ V !! l_id l = Some LTrue.

  (** The log tells how tasks ended ([F]) and links were decided ([V]). *)
  Record told (cur : option string) (F : gmap string Z) (V : gmap nat Z) (y : inst) (s : st) : Prop := {
    to_upd : forall id z, ends z -> cur <> Some id -> EvTaskUpd 0 id z ∈ s_log s -> F !! id = Some z;
    to_F : forall id z, F !! id = Some z -> EvTaskUpd 0 id z ∈ s_log s;
    to_set : forall k z, EvLinkSet 0 k z ∈ s_log s -> V !! k = Some z \/ (z = LFalse /\ V !! k = Some LTrue);
    to_V : forall k z, V !! k = Some z -> EvLinkSet 0 k z ∈ s_log s;
    to_val : forall k b, EvLinkEval 0 k b ∈ s_log s -> is_Some (V !! k);
    to_rule : forall tk z, tk ∈ d_tasks d -> F !! t_id tk = Some z ->
      exists v, (forall l, l ∈ t_to tk -> V !! l_id l = Some (fate z (t_to tk) v l)) /\
        (z = TDone -> forall l, l ∈ t_to tk -> l_type l = LtExpression -> forall b, EvLinkEval 0 (l_id l) b ∈ s_log s <-> b = v (l_id l));
    to_live : forall tk z, tk ∈ d_tasks d -> F !! t_id tk = Some z -> z = TSkipped <-> ~ live V tk;
    to_once : NoDup (evaluations s);
    to_eval : forall i id, (i, id) ∈ evaluations s -> i = 0%nat /\ (cur = Some id \/ F !! id = Some TDone \/ F !! id = Some TFailed \/
      (F !! id = None /\ exists u x, i_tasks y !! id = Some u /\ s_tis s !! u = Some x /\ ti_status x = TWaiting));
    to_call : forall id, calls_ok -> F !! id = Some TDone \/ F !! id = Some TFailed -> (0%nat, id) ∈ evaluations s;
    to_out : forall id o, calls_ok -> EvActEnd 0 id o ∈ s_log s -> cur = Some id \/ F !! id = Some (ended o) \/
      (F !! id = None /\ exists u x, i_tasks y !! id = Some u /\ s_tis s !! u = Some x /\ ti_status x = TWaiting);
    to_res : forall id z, calls_ok -> F !! id = Some z -> z <> TSkipped -> exists o, EvActEnd 0 id o ∈ s_log s
  }.

  (** [U]: the tasks still to be entered; [cur]: the task being finished. *)
  Record inv (cur : option string) (U : list task) (F : gmap string Z) (V : gmap nat Z) (y : inst) (s : st) : Prop := {
    iv_y : s_insts s !! 0%nat = Some y;
    iv_d : i_def y = d;
    iv_h : i_handling y = false;
    iv_force : returns_not sync -> i_force y = false;
    iv_o : forall u, (s_nti s <= u)%nat -> s_tis s !! u = None;
    iv_F : forall id z, F !! id = Some z -> ends z /\ exists tk, tk ∈ d_tasks d /\ t_id tk = id;
    iv_down : forall l, l ∈ d_links d -> is_Some (F !! l_to l) -> is_Some (F !! l_from l);
    iv_V : forall l, l ∈ d_links d -> is_Some (V !! l_id l) <-> is_Some (F !! l_from l);
    iv_Vz : forall k z, V !! k = Some z -> decision z;
    iv_links : forall l, l ∈ d_links d -> F !! l_to l = None -> link_status y l = default LUnset (V !! l_id l);
    iv_reg : forall id u, i_tasks y !! id = Some u -> exists tk x, tk ∈ d_tasks d /\ t_id tk = id /\
      s_tis s !! u = Some x /\ ti_inst x = 0%nat /\ ti_task x = tk /\ (is_Some (F !! id) -> TDone <= ti_status x) /\
      (F !! id = None -> cur <> Some id ->
        ti_status x = TEntered \/ ((ti_status x = TReady \/ (ti_status x = TWaiting /\ ~ sync)) /\ ready F tk /\ live V tk));
    iv_queue : forall w u, (w, u) ∈ s_queue s -> exists id x, i_tasks y !! id = Some u /\ F !! id = None /\ cur <> Some id /\
      s_tis s !! u = Some x /\ ti_status x = TReady;
    iv_nodup : NoDup (s_queue s).*2;
    iv_ready : forall tk, tk ∈ d_tasks d -> F !! t_id tk = None -> cur <> Some (t_id tk) -> ready F tk -> tk ∉ U ->
      exists u x, i_tasks y !! t_id tk = Some u /\ s_tis s !! u = Some x /\ (u ∈ (s_queue s).*2 \/ ti_status x = TWaiting);
    iv_seen : forall l tk, tk ∈ d_tasks d -> l ∈ t_from tk -> V !! l_id l = Some LTrue -> F !! t_id tk = None -> tk ∉ U ->
      is_Some (i_tasks y !! t_id tk);
    iv_stat : i_status y = FActive \/ i_status y = FCompleted;
    iv_comp : i_status y = FCompleted -> forall tk, tk ∈ d_tasks d -> F !! t_id tk = None -> ~ live V tk;
    iv_U : NoDup U;
    iv_U1 : forall tk, tk ∈ U -> tk ∈ d_tasks d /\ F !! t_id tk = None /\ cur <> Some (t_id tk) /\
      (forall u x, i_tasks y !! t_id tk = Some u -> s_tis s !! u = Some x -> ti_status x = TEntered);
    iv_U2 : opairs (fun tk tk' => (live V tk \/ ~ above d (t_id tk) (t_id tk')) /\
      (live V tk' -> i_tasks y !! t_id tk' = None -> live V tk)) U;
    iv_told : told cur F V y s
  }.
End Inv.
