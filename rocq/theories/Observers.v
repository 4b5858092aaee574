(** Two runs, one with observers. No Go counterpart (proof infrastructure). *)
From Verif Require Export SpecObs Steps Exact.
Local Open Scope Z_scope.

(** ** The relation *)

(** What the observers do not add to the log. *)
Definition vis (e : event) : option event :=
  match e with
  | EvSnapshot _ | EvStep | EvSkipStep | EvRecStart | EvRecDone | EvFlowEvent _ _ _ _ _ => None
  | EvSet i m _ => Some (EvSet i m false)
  | _ => Some e
  end.

(** Returned data of flow [x] without observers and [r] with. *)
Definition rok (x : inst) (r : option vmap) : Prop := r = i_rdata x \/ (i_rdata x = None /\ ~ no_outputs (i_def x)).
Definition imaps (I I' : gmap nat inst) : Prop := forall i,
  match I !! i with None => I' !! i = None | Some x => exists r, I' !! i = Some (set_i_rdata r x) /\ rok x r end.
Definition with_obs (I : gmap nat inst) (l : list event) (s : st) : st := set_s_insts I (set_s_log l s).
Definition sim (s s' : st) : Prop := exists I l, s' = with_obs I l s /\ imaps (s_insts s) I /\ omap vis l = omap vis (s_log s).

(** An invariant of the run without observers. *)
Definition ok (s : st) : Prop :=
  (forall i, (s_sfctr s < i)%nat -> s_insts s !! i = None) /\ is_Some (s_insts s !! 0%nat) /\
  (forall t x, s_tis s !! t = Some x -> is_Some (s_insts s !! ti_inst x)) /\
  (forall i, has_returned i (trace s) -> exists y, s_insts s !! i = Some y /\ i_rdata y <> None).
Definition grows (s s' : st) : Prop := (exists l, s_log s' = l ++ s_log s) /\
  forall i y, s_insts s !! i = Some y -> exists y', s_insts s' !! i = Some y' /\ i_def y' = i_def y.
(** A subflow completed without having returned its outputs. *)
Definition bad (s : st) : Prop := exists i y l1 l2, i <> 0%nat /\ s_log s = l2 ++ EvFlowStatus i FCompleted :: l1 /\
  ~ has_returned i (rev l1) /\ s_insts s !! i = Some y /\ ~ no_outputs (i_def y).

Lemma grows_refl s : grows s s.
Proof. split; [by exists []|]. eauto. Qed.
Lemma grows_trans a b c : grows a b -> grows b c -> grows a c.
Proof.
  intros [[l1 H1] D1] [[l2 H2] D2]. split; [exists (l2 ++ l1); by rewrite H2, H1, app_assoc|]. intros i y Hy.
  destruct (D1 _ _ Hy) as (y1 & Hy1 & E1). destruct (D2 _ _ Hy1) as (y2 & Hy2 & E2). exists y2. split; [done|congruence].
Qed.
Lemma bad_grows s s' : bad s -> grows s s' -> bad s'.
Proof.
  intros (i & y & l1 & l2 & Hi & Hl & Hr & Hy & Ho) [[l Hl'] D]. destruct (D _ _ Hy) as (y' & Hy' & E).
  exists i, y', l1, (l ++ l2). split_and!; try done; [by rewrite Hl', Hl, app_assoc|by rewrite E].
Qed.
Lemma rok_refl x : rok x (i_rdata x).
Proof. by left. Qed.
Lemma rdata_same x : set_i_rdata (i_rdata x) x = x.
Proof. by destruct x. Qed.
Lemma imaps_refl I : imaps I I.
Proof. intros i. destruct (I !! i) as [x|]; [|done]. exists (i_rdata x). split; [by rewrite rdata_same|apply rok_refl]. Qed.
Lemma sim_refl s : sim s s.
Proof. exists (s_insts s), (s_log s). split; [by destruct s|]. split; [apply imaps_refl|done]. Qed.
Lemma has_returned_snoc i l ev : has_returned i (l ++ [ev]) ->
  (has_returned i l /\ ~ nil_result i ev) \/ exists d e, ev = EvReturn i (Some d) e.
Proof.
  intros (a & d & e & b & Hl & Hb). destruct b as [|z b _] using rev_ind.
  - right. apply app_inj_tail in Hl as [_ ->]. eauto.
  - left. rewrite app_comm_cons, app_assoc in Hl. apply app_inj_tail in Hl as [-> ->]. apply Forall_app in Hb as [Hb Hz].
    split; [by exists a, d, e, b|]. by inversion Hz.
Qed.

(** ** The logic *)
Definition rel_at {A} (s : st) (m m' : M A) : Prop :=
  (ok (m s).2 /\ grows s (m s).2) /\
  forall s', sim s s' -> bad (m s).2 \/ ((m' s').1 = (m s).1 /\ sim (m s).2 (m' s').2).
Definition rel {A} (m m' : M A) : Prop := forall s, ok s -> rel_at s m m'.

Lemma rel_at_bind {A B} s (m m' : M A) (k k' : A -> M B) : rel_at s m m' -> (forall a s1, m s = (Ok a, s1) -> ok s1 -> rel_at s1 (k a) (k' a)) ->
  rel_at s (bind m k) (bind m' k').
Proof.
  intros [[O1 G1] S1] Hk. unfold rel_at, bind. destruct (m s) as [[a| | |] s1]; cbn [fst snd] in *.
  - destruct (Hk a s1 eq_refl O1) as [[O2 G2] S2]. split; [split; [done|by eapply grows_trans]|]. intros s' Hs.
    destruct (S1 s' Hs) as [B1|[E1 Hs1]]; [left; by eapply bad_grows|]. destruct (m' s') as [o s1']. cbn in E1, Hs1. subst o. by apply S2.
  - split; [done|]. intros s' Hs. destruct (S1 s' Hs) as [B1|[E1 Hs1]]; [by left|right]. destruct (m' s') as [o s1']. cbn in E1, Hs1. by subst o.
  - split; [done|]. intros s' Hs. destruct (S1 s' Hs) as [B1|[E1 Hs1]]; [by left|right]. destruct (m' s') as [o s1']. cbn in E1, Hs1. by subst o.
  - split; [done|]. intros s' Hs. destruct (S1 s' Hs) as [B1|[E1 Hs1]]; [by left|right]. destruct (m' s') as [o s1']. cbn in E1, Hs1. by subst o.
Qed.
Lemma rel_bind {A B} (m m' : M A) (k k' : A -> M B) : rel m m' -> (forall a, rel (k a) (k' a)) -> rel (bind m k) (bind m' k').
Proof. intros Hm Hk s Ho. apply rel_at_bind; [by apply Hm|]. intros a s1 _. apply Hk. Qed.
Lemma rel_catch {A} (m m' : M A) h h' : rel m m' -> (forall e, rel (h e) (h' e)) -> rel (catch m h) (catch m' h').
Proof.
  intros Hm Hk s Ho. destruct (Hm s Ho) as [[O1 G1] S1]. unfold rel_at, catch. destruct (m s) as [[a|e| |] s1]; cbn [fst snd] in *.
  - split; [done|]. intros s' Hs. destruct (S1 s' Hs) as [B1|[E1 Hs1]]; [by left|right]. destruct (m' s') as [o s1']. cbn in E1, Hs1. by subst o.
  - destruct (Hk e s1 O1) as [[O2 G2] S2]. split; [split; [done|by eapply grows_trans]|]. intros s' Hs.
    destruct (S1 s' Hs) as [B1|[E1 Hs1]]; [left; by eapply bad_grows|]. destruct (m' s') as [o s1']. cbn in E1, Hs1. subst o. by apply S2.
  - split; [done|]. intros s' Hs. destruct (S1 s' Hs) as [B1|[E1 Hs1]]; [by left|right]. destruct (m' s') as [o s1']. cbn in E1, Hs1. by subst o.
  - split; [done|]. intros s' Hs. destruct (S1 s' Hs) as [B1|[E1 Hs1]]; [by left|right]. destruct (m' s') as [o s1']. cbn in E1, Hs1. by subst o.
Qed.
Lemma rel_here {A} (o : out A) : rel (fun s => (o, s)) (fun s => (o, s)).
Proof. intros s Ho. split; [split; [done|apply grows_refl]|]. intros s' Hs. by right. Qed.
Lemma rel_ret {A} (a : A) : rel (ret a) (ret a).
Proof. apply rel_here. Qed.
Lemma rel_panic {A} msg : rel (panic (A:=A) msg) (panic msg).
Proof. apply rel_here. Qed.
Lemma rel_fuel {A} : rel (out_of_fuel (A:=A)) out_of_fuel.
Proof. apply rel_here. Qed.
Lemma rel_finally {A} (m m' : M A) f f' : rel m m' -> rel f f' -> rel (finally m f) (finally m' f').
Proof.
  intros Hm Hf. unfold finally. apply rel_bind.
  - apply rel_catch; [apply rel_bind; [done|intros; apply rel_ret]|intros; apply rel_ret].
  - intros r. apply rel_bind; [done|]. intros _. destruct r; [apply rel_panic|apply rel_ret].
Qed.
Lemma rel_iterM {A} (f f' : A -> M unit) l : (forall x, rel (f x) (f' x)) -> rel (iterM f l) (iterM f' l).
Proof. intros Hf. induction l; simpl; [apply rel_ret|]. apply rel_bind; auto. Qed.
Lemma rel_get {A} (k k' : st -> M A) :
  (forall s I l, imaps (s_insts s) I -> rel (k s) (k' (with_obs I l s))) -> rel (bind get k) (bind get k').
Proof.
  intros H s Ho. assert (H1 : forall I l, imaps (s_insts s) I -> rel_at s (k s) (k' (with_obs I l s))) by (intros; by apply H).
  split; [apply (H1 (s_insts s) (s_log s)), imaps_refl|].
  intros s' (I & l & -> & HI & Hl). destruct (H1 I l HI) as [_ S1]. apply S1. exists I, l. done.
Qed.
Lemma sim_inst s s' i x : sim s s' -> s_insts s !! i = Some x -> exists r, s_insts s' !! i = Some (set_i_rdata r x) /\ rok x r.
Proof. intros (I & l & -> & HI & Hl) Hx. specialize (HI i). rewrite Hx in HI. done. Qed.
Lemma sim_no_inst s s' i : sim s s' -> s_insts s !! i = None -> s_insts s' !! i = None.
Proof. intros (I & l & -> & HI & Hl) Hx. specialize (HI i). by rewrite Hx in HI. Qed.
Lemma rel_at_binst {A} s i (k k' : inst -> M A) : ok s ->
  (forall x r, s_insts s !! i = Some x -> rok x r -> rel_at s (k x) (k' (set_i_rdata r x))) -> rel_at s (bind (get_inst i) k) (bind (get_inst i) k').
Proof.
  intros Ho H. unfold rel_at, bind, get_inst, bind, get. destruct (s_insts s !! i) as [x|] eqn:Hx.
  - cbn [ret]. unfold ret. split.
    + pose proof (H x (i_rdata x) eq_refl (rok_refl x)) as [? _]. done.
    + intros s' Hs. destruct (sim_inst _ _ _ _ Hs Hx) as (r & -> & Hr). by apply (H x r eq_refl Hr).
  - split; [split; [done|apply grows_refl]|]. intros s' Hs. rewrite (sim_no_inst _ _ _ Hs Hx). by right.
Qed.
Lemma rel_binst {A} i (k k' : inst -> M A) :
  (forall x r, rok x r -> rel (k x) (k' (set_i_rdata r x))) -> rel (bind (get_inst i) k) (bind (get_inst i) k').
Proof. intros H s Ho. apply rel_at_binst; [done|]. intros x r _ Hr. by apply H. Qed.
Lemma rel_get_inst i : forall B (k : inst -> B), (forall x r, k (set_i_rdata r x) = k x) ->
  rel (bind (get_inst i) (fun x => ret (k x))) (bind (get_inst i) (fun x => ret (k x))).
Proof. intros B k Hk. apply rel_binst. intros x r _. rewrite Hk. apply rel_ret. Qed.
Lemma rel_inst_ {A} i (m m' : M A) : rel m m' -> rel (bind (get_inst i) (fun _ => m)) (bind (get_inst i) (fun _ => m')).
Proof. intros H. by apply rel_binst. Qed.
Lemma sim_tis s s' : sim s s' -> s_tis s' = s_tis s.
Proof. by intros (I & l & -> & _). Qed.
Lemma rel_get_ti t : rel (get_ti t) (get_ti t).
Proof.
  intros s Ho. unfold rel_at, get_ti, bind, get. destruct (s_tis s !! t) as [x|] eqn:Hx.
  all: split; [split; [done|apply grows_refl]|]; intros s' Hs; rewrite (sim_tis _ _ Hs), Hx; by right.
Qed.

(** *** Elementary changes *)
Lemma rel_modify f :
  (forall I l s, f (with_obs I l s) = with_obs I l (f s)) -> (forall s, s_insts (f s) = s_insts s) -> (forall s, s_log (f s) = s_log s) ->
  (forall s, s_sfctr (f s) = s_sfctr s) -> (forall s, s_tis (f s) = s_tis s) -> rel (modify f) (modify f).
Proof.
  intros H1 H2 H3 H4 H5 s (O1 & O2 & O3 & O4). unfold rel_at, modify. cbn [fst snd]. split.
  - split; [|split; [exists []; by rewrite H3|intros i y; rewrite H2; eauto]]. unfold ok, trace. rewrite H2, H3, H4, H5. done.
  - intros s' (I & l & -> & HI & Hl). right. split; [done|]. exists I, l. rewrite H1, H2, H3. done.
Qed.
Lemma rel_upd_ti t f : (forall x, ti_inst (f x) = ti_inst x) -> rel (upd_ti t f) (upd_ti t f).
Proof.
  intros Hf s (O1 & O2 & O3 & O4). unfold rel_at, upd_ti, modify. cbn [fst snd]. split.
  - split; [|split; [by exists []|cbn; eauto]]. split; [done|]. split; [done|]. split; [|done]. cbn. intros u x Hx.
    destruct (decide (t = u)) as [->|]; [|rewrite lookup_alter_ne in Hx by done; by eapply O3].
    rewrite lookup_alter in Hx. apply fmap_Some in Hx as (x0 & Hx0 & ->). rewrite Hf. by eapply O3.
  - intros s' (I & l & -> & HI & Hl). right. split; [done|]. exists I, l. done.
Qed.
Lemma imaps_alter I I' i f : (forall x r, f (set_i_rdata r x) = set_i_rdata r (f x)) -> (forall x, i_rdata (f x) = i_rdata x) ->
  (forall x, i_def (f x) = i_def x) -> imaps I I' -> imaps (alter f i I) (alter f i I').
Proof.
  intros H1 H2 H3 HI j. specialize (HI j). destruct (decide (i = j)) as [->|]; [|by rewrite !lookup_alter_ne].
  rewrite !lookup_alter. destruct (I !! j) as [x|]; cbn [fmap option_fmap option_map].
  - destruct HI as (r & -> & Hr). exists r. split; [cbn; by rewrite H1|]. unfold rok. rewrite H2, H3. done.
  - by rewrite HI.
Qed.
Lemma rel_upd_inst i f : (forall x r, f (set_i_rdata r x) = set_i_rdata r (f x)) -> (forall x, i_rdata (f x) = i_rdata x) ->
  (forall x, i_def (f x) = i_def x) -> rel (upd_inst i f) (upd_inst i f).
Proof.
  intros H1 H2 H3 s (O1 & O2 & O3 & O4). unfold rel_at, upd_inst, modify. cbn [fst snd].
  assert (Hs : forall j, is_Some (s_insts s !! j) -> is_Some (alter f i (s_insts s) !! j)).
  { intros j [y Hy]. destruct (decide (i = j)) as [->|]; [rewrite lookup_alter, Hy; by eexists|rewrite lookup_alter_ne by done; by eexists]. }
  split.
  - split; [|split; [by exists []|]].
    + split; [|split; [by apply Hs|split; [cbn; intros t x Hx; by eapply Hs, O3|]]].
      * cbn. intros j Hj. destruct (decide (i = j)) as [->|]; [by rewrite lookup_alter, O1|by rewrite lookup_alter_ne, O1].
      * intros j Hj. destruct (O4 j Hj) as (y & Hy & Hr). cbn. destruct (decide (i = j)) as [->|].
        -- exists (f y). rewrite lookup_alter, Hy, H2. done.
        -- exists y. by rewrite lookup_alter_ne.
    + cbn. intros j y Hy. destruct (decide (i = j)) as [->|]; [exists (f y); by rewrite lookup_alter, Hy, H3|exists y; by rewrite lookup_alter_ne].
  - intros s' (I & l & -> & HI & Hl). right. split; [done|]. exists (alter f i I), l. split; [done|]. split; [by apply imaps_alter|done].
Qed.
Lemma ok_log e s : (forall i d x, e <> EvReturn i (Some d) x) -> ok s -> ok (p_log e s).
Proof.
  intros He (O1 & O2 & O3 & O4). split; [done|]. split; [done|]. split; [done|]. intros i Hi. cbn in Hi. unfold trace in Hi. cbn in Hi.
  apply has_returned_snoc in Hi as [[Hi _]|(d & x & ->)]; [by apply O4|by destruct (He i d x)].
Qed.
Lemma grows_log e s : grows s (p_log e s).
Proof. split; [by exists [e]|]. eauto. Qed.
Lemma sim_log e e' s s' : vis e = vis e' -> sim s s' -> sim (p_log e s) (p_log e' s').
Proof. intros He (I & l & -> & HI & Hl). exists I, (e' :: l). split; [done|]. split; [done|]. cbn. rewrite He. by destruct (vis e'); rewrite Hl. Qed.
Lemma rel_log2 e e' : vis e = vis e' -> (forall i d x, e <> EvReturn i (Some d) x) -> rel (log_ev e) (log_ev e').
Proof.
  intros Hv He s Ho. split; [split; [by apply ok_log|apply grows_log]|]. intros s' Hs. right. split; [done|]. by apply sim_log.
Qed.
Lemma rel_log e : (forall i d x, e <> EvReturn i (Some d) x) -> rel (log_ev e) (log_ev e).
Proof. by apply rel_log2. Qed.

(** The observed run alone. *)
Lemma sim_log_r e s s' : vis e = None -> sim s s' -> sim s (p_log e s').
Proof. intros He (I & l & -> & HI & Hl). exists I, (e :: l). split; [done|]. split; [done|]. cbn. by rewrite He. Qed.
Lemma sim_return_r i s s' : sim s s' -> is_Some (s_insts s !! i) ->
  exists r s1, get_return_data i s' = (Ok r, s1) /\ sim s s1.
Proof.
  intros Hs [x Hx]. destruct (sim_inst _ _ _ _ Hs Hx) as (r & Hx' & Hr). unfold get_return_data, bind at 1, get_inst, bind, get. rewrite Hx'. unfold ret at 1.
  cbn [set_i_rdata i_rdata i_def i_attrs i_rerr]. destruct r as [d|]; [by eexists _, _|]. destruct (d_md (i_def x)) as [[mi [mdo|]]|] eqn:Hd; [|by eexists _, _..].
  eexists _, _. split; [reflexivity|]. destruct Hs as (I & l & -> & HI & Hl). eexists (alter _ i I), l. split; [reflexivity|]. split; [|done].
  intros j. specialize (HI j). destruct (decide (i = j)) as [->|]; [|by rewrite lookup_alter_ne]. rewrite lookup_alter, Hx. cbn in Hx'. rewrite Hx'.
  eexists. split; [reflexivity|]. right. rewrite Hx in HI. destruct HI as (r' & HI & Hr'). rewrite Hx' in HI. injection HI as <-.
  split; [destruct Hr as [Hr|[Hr _]]; [by rewrite <- Hr|done]|]. intros Hn. by specialize (Hn _ Hd).
Qed.

(** ** The engine *)
Section Rel.
  Local Set Default Proof Using "Type*".
  Context (E : env) (lb : bool) (rb : option recmode) (xb tb : bool).
  Notation E' := (observing lb rb xb tb E).
  Context (HL : e_listener E = false) (HX : e_ext E = false) (HR : recordable E) (HR' : recordable E').

  Ltac flds := repeat first
    [ progress change (e_act E') with (e_act E) | progress change (e_post E') with (e_post E) | progress change (e_link E') with (e_link E)
    | progress change (e_cond E') with (e_cond E) | progress change (e_iter E') with (e_iter E) | progress change (e_num E') with (e_num E)
    | progress change (e_inmap E') with (e_inmap E) | progress change (e_setmap E') with (e_setmap E)
    | progress change (e_inschema E') with (e_inschema E) | progress change (e_outschema E') with (e_outschema E)
    | progress change (e_toint E') with (e_toint E) | progress change (e_toarr E') with (e_toarr E) | progress change (e_totype E') with (e_totype E)
    | progress change (e_assert E') with (e_assert E) | progress change (e_def E') with (e_def E) | progress change (e_id E') with (e_id E)
    | progress change (e_conc E') with (e_conc E) | progress change (e_prio E') with (e_prio E) | progress change (e_propskip E') with (e_propskip E)
    | progress change (e_icpt E') with (e_icpt E) | progress change (task_icpt E') with (task_icpt E) | progress change (make_iter E') with (make_iter E)
    | progress change (inst_id E') with (inst_id E) | progress change (ctx_attrs E') with (ctx_attrs E) ].
  Ltac norm := cbn [set_i_rdata i_host i_handling i_status i_def i_uri i_tasks i_links i_force i_rerr i_attrs i_handler
    with_obs set_s_insts set_s_log s_tis s_nti s_queue s_wictr s_sfctr s_subs s_step s_tick s_lock]; flds;
    repeat match goal with |- context [link_status (set_i_rdata ?r ?x)] => change (link_status (set_i_rdata r x)) with (link_status x) end.

  Lemma rel_tick : rel tick tick.
  Proof. unfold tick. apply rel_get. intros s I l _. norm. apply rel_bind; [by apply rel_modify|intros; apply rel_ret]. Qed.
  Lemma view_same s I l t : imaps (s_insts s) I -> view_of (with_obs I l s) t = view_of s t.
  Proof.
    intros HI. unfold view_of. norm. destruct (s_tis s !! t) as [x|]; [|done]. f_equal. specialize (HI (ti_inst x)). cbn.
    destruct (s_insts s !! ti_inst x); [destruct HI as (r & -> & _)|rewrite HI]; done.
  Qed.
  Lemma rel_view t : rel (bind get (fun s => ret (view_of s t))) (bind get (fun s => ret (view_of s t))).
  Proof. apply rel_get. intros s I l HI. rewrite view_same by done. apply rel_ret. Qed.
  Lemma rel_ext {A} t (f : nat -> view -> A) : rel (ext t f) (ext t f).
  Proof. unfold ext. apply rel_bind; [apply rel_tick|]. intros n. apply rel_get. intros s I l HI. rewrite view_same by done. apply rel_ret. Qed.
  Lemma rel_set_attrs tr tr' i m : rel (set_attrs tr i m) (set_attrs tr' i m).
  Proof.
    unfold set_attrs. apply rel_inst_. apply rel_bind; [by apply rel_upd_inst|]. intros _. by apply rel_log2.
  Qed.
  Lemma rel_set_values i m : rel (set_values E i m) (set_values E' i m).
  Proof. apply rel_set_attrs. Qed.
  Lemma rel_set_value i n v : rel (set_value E i n v) (set_value E' i n v).
  Proof. apply rel_set_attrs. Qed.
  Lemma rel_record : rel (record_state E) (record_state E').
  Proof.
    destruct HR as (m & Hm & [?|[H1 H2]]); [congruence|]. destruct HR' as (m' & Hm' & Hx). unfold record_state. rewrite Hm, Hm', H1, H2.
    intros s Ho. split; [split; [done|apply grows_refl]|]. intros s' Hs. right. cbv [bind ret get log_ev modify].
    change (e_rec E') with rb in Hm'. change (e_ext E') with xb in *.
    destruct Hx as [->|[-> ->]]; [|done]. destruct (record_snapshot m'), (record_steps m'); cbn; (split; [done|]);
      repeat match goal with |- context [set_s_log (?e :: s_log ?u) ?u] => change (set_s_log (e :: s_log u) u) with (p_log e u) end;
      repeat (apply sim_log_r; [done|]); done.
  Qed.
  Lemma rel_set_flow_status i z : rel (set_flow_status E i z) (set_flow_status E' i z).
  Proof.
    intros s Ho. unfold set_flow_status. 
    assert (H1 : rel_at s (bind (get_inst i) (fun _ => bind (upd_inst i (set_i_status z)) (fun _ => log_ev (EvFlowStatus i z))))
      (bind (get_inst i) (fun _ => bind (upd_inst i (set_i_status z)) (fun _ => log_ev (EvFlowStatus i z))))).
    { revert s Ho. change (rel (bind (get_inst i) (fun _ => bind (upd_inst i (set_i_status z)) (fun _ => log_ev (EvFlowStatus i z))))
        (bind (get_inst i) (fun _ => bind (upd_inst i (set_i_status z)) (fun _ => log_ev (EvFlowStatus i z))))).
      apply rel_inst_. apply rel_bind; [by apply rel_upd_inst|]. intros _. by apply rel_log. }
    unfold post_flow_event. rewrite HL. revert H1. unfold rel_at, bind at 1 2 4 5, get_inst at 1 2 4 5, bind at 1 3, get.
    cbv [bind get_inst get]. destruct (s_insts s !! i) as [x|] eqn:Hx.
    2:{ cbv [panic]. intros [H1 H2]. split; [done|]. intros s' Hs. specialize (H2 s' Hs). by rewrite (sim_no_inst _ _ _ Hs Hx) in *. }
    cbv [ret]. intros [H1 H2]. split; [exact H1|]. intros s' Hs. destruct (H2 s' Hs) as [?|[H3 H4]]; [by left|right].
    destruct (sim_inst _ _ _ _ Hs Hx) as (r & Hx' & Hr). rewrite Hx' in *. cbv [upd_inst modify log_ev] in *. cbn [fst snd] in *.
    destruct (e_listener E') eqn:Hl; [|done].
    match goal with |- context [s_insts ?u !! i] => set (s1' := u) in *; assert (Hi : s_insts s1' !! i = set_i_status z <$> s_insts s' !! i) by (subst s1'; cbn; by rewrite lookup_alter) end.
    rewrite Hx' in Hi. rewrite Hi. cbn [fmap option_fmap option_map]. destruct (bool_decide _); [split; [done|]; by apply (sim_log_r (flow_event i _ _))|].
    match type of H4 with sim ?u _ => destruct (sim_return_r i u s1' H4) as (r1 & s2' & -> & H5) end; [|split; [done|]; by apply (sim_log_r (flow_event i _ _))].
    cbn. rewrite lookup_alter, Hx. by eexists.
  Qed.

  Lemma rel_new_task i tk x : forall s, ok s -> s_insts s !! i = Some x ->
    rel_at s (new_tinst i tk) (new_tinst i tk).
  Proof.
    intros s (O1 & O2 & O3 & O4) Hx. unfold rel_at, new_tinst. destruct (t_act tk); cycle 1.
    { split; [split; [done|apply grows_refl]|]. intros s' Hs. by right. }
    cbv [bind get modify ret]. cbn [fst snd]. split.
    - split; [|split; [by exists []|cbn; eauto]]. split; [done|]. split; [done|]. split; [|done]. cbn. intros t x0 H0.
      destruct (decide (s_nti s = t)) as [<-|]; [|rewrite lookup_insert_ne in H0 by done; by eapply O3].
      rewrite lookup_insert in H0. injection H0 as <-. cbn. rewrite Hx. by eexists.
    - intros s' (I & l & -> & HI & Hl). right. split; [done|]. exists I, l. done.
  Qed.
  Lemma rel_find_task i tk : rel (find_or_create_task i tk) (find_or_create_task i tk).
  Proof.
    intros s Ho. unfold find_or_create_task. apply rel_at_binst; [done|]. intros x r Hx _. norm.
    destruct (i_tasks x !! t_id tk); [by apply rel_ret|].
    assert (Hk : forall t, rel (bind (upd_inst i (fun x => set_i_tasks (<[t_id tk := t]> (i_tasks x)) x)) (fun _ => bind (log_ev (EvTaskAdd i (t_id tk))) (fun _ => ret t)))
        (bind (upd_inst i (fun x => set_i_tasks (<[t_id tk := t]> (i_tasks x)) x)) (fun _ => bind (log_ev (EvTaskAdd i (t_id tk))) (fun _ => ret t)))).
      { intros t. apply rel_bind; [by apply rel_upd_inst|]. intros _. apply rel_bind; [by apply rel_log|]. intros _. apply rel_ret. }
    apply rel_at_bind; [by eapply rel_new_task|intros a s1 _; apply Hk].
  Qed.
  Lemma rel_new_embedded t uri d : rel (new_embedded t uri d) (new_embedded t uri d).
  Proof.
    intros s (O1 & O2 & O3 & O4). unfold rel_at, new_embedded, get_ti. cbv [bind get]. destruct (s_tis s !! t) as [x|] eqn:Hx.
    2:{ split; [split; [done|apply grows_refl]|]. intros s' Hs. right. by rewrite (sim_tis _ _ Hs), Hx. }
    cbv [ret modify log_ev]. cbn [fst snd]. 
    assert (Hf : s_insts s !! S (s_sfctr s) = None) by (apply O1; lia).
    split.
    - split; [|split].
      + apply ok_log; [done|]. split; [|split; [|split]]; cbn.
        * intros i Hi. rewrite lookup_insert_ne by lia. apply O1. lia.
        * by rewrite lookup_insert_ne.
        * intros u x0 H0. destruct (decide (S (s_sfctr s) = ti_inst x0)) as [<-|]; [rewrite lookup_insert; by eexists|]. rewrite lookup_insert_ne by done. by eapply O3.
        * intros i Hi. destruct (O4 i Hi) as (y & Hy & Hr). exists y. rewrite lookup_insert_ne; [done|]. intros <-. congruence.
      + eexists [_]. reflexivity.
      + intros i y Hy. exists y. cbn. rewrite lookup_insert_ne; [done|]. intros <-. congruence.
    - intros s' (I & l & -> & HI & Hl). right. cbn [with_obs set_s_insts set_s_log s_tis]. rewrite Hx. split; [done|]. cbn. eexists _, _. split; [reflexivity|]. split; [|cbn; by rewrite Hl].
      cbn. intros j. specialize (HI j). destruct (decide (S (s_sfctr s) = j)) as [<-|]; [|by rewrite !lookup_insert_ne].
      rewrite !lookup_insert. eexists. split; [reflexivity|]. by left.
  Qed.

  Ltac go := repeat first
    [ assumption
    | lazymatch goal with
      | |- rel (ret _) _ => apply rel_ret
      | |- rel (panic _) _ => apply rel_panic
      | |- rel out_of_fuel _ => apply rel_fuel
      | |- rel tick _ => apply rel_tick
      | |- rel (ext _ _) _ => apply rel_ext
      | |- rel (bind get (fun s => ret (view_of s _))) _ => apply rel_view
      | |- rel (get_ti _) _ => apply rel_get_ti
      | |- rel (log_ev _) _ => apply rel_log; done
      | |- rel (find_or_create_task _ _) _ => apply rel_find_task
      | |- rel (new_embedded _ _ _) _ => apply rel_new_embedded
      | |- rel (set_flow_status _ _ _) _ => apply rel_set_flow_status
      | |- rel (record_state _) _ => apply rel_record
      | |- rel (set_attrs _ _ _) _ => apply rel_set_attrs
      | |- rel (set_values _ _ _) _ => apply rel_set_values
      | |- rel (set_value _ _ _ _) _ => apply rel_set_value
      | |- rel (upd_ti _ _) _ => apply rel_upd_ti; intros ?; reflexivity
      | |- rel (upd_inst _ _) _ => apply rel_upd_inst; intros; reflexivity
      | |- rel (modify _) _ => apply rel_modify; intros; reflexivity
      | |- rel (iterM _ _) _ => apply rel_iterM; intros ?
      | |- rel (bind get _) _ => apply rel_get; intros ? ? ? _; norm
      | |- rel (bind (get_inst _) _) _ => apply rel_binst; intros ? ? _; norm
      | |- rel (bind _ _) _ => apply rel_bind; [|intros ?]
      | |- rel (catch _ _) _ => apply rel_catch; [|intros ?]
      | |- rel (finally _ _) _ => apply rel_finally
      | |- rel (let _ := _ in _) _ => cbv zeta
      | |- rel (match ?x with _ => _ end) _ => destruct x
      | |- rel (set_wd _ _ _) _ => unfold set_wd
      | |- rel (set_task_status _ _) _ => unfold set_task_status
      | |- rel (track_task _) _ => unfold track_task
      | |- rel (find_or_create_link _ _) _ => unfold find_or_create_link
      | |- rel (from_links _) _ => unfold from_links
      | |- rel (to_links _) _ => unfold to_links
      | |- rel (need_cov _ _ _) _ => unfold need_cov
      | |- rel (set_link_status _ _ _ _) _ => unfold set_link_status; flds
      | |- rel (release_task _ _) _ => unfold release_task
      | |- rel (schedule_eval _) _ => unfold schedule_eval
      | |- rel (append_error_data _ _ _) _ => unfold append_error_data
      | |- rel (set_task_error _ _ _) _ => unfold set_task_error
      | |- rel (add_activity_coverage _ _) _ => unfold add_activity_coverage; flds
      | |- rel (apply_settings _ _) _ => unfold apply_settings; flds
      | |- rel (enter _) _ => unfold enter
      | |- rel (host_of _) _ => unfold host_of
      | |- rel clear_tasks _ => unfold clear_tasks
      | |- rel (entries_of _ _) _ => unfold entries_of
      | |- rel (eval_link _ _ _) _ => unfold eval_link; flds
      | |- rel (done_link _ _ _ _ _) _ => unfold done_link; flds
      | |- rel (beh_skip _ _) _ => unfold beh_skip; flds
      | |- rel (beh_error _ _) _ => unfold beh_error; flds
      | |- rel (flow_task_done _) _ => unfold flow_task_done
      | |- rel (parent_info _ _) _ => unfold parent_info; flds
      | |- rel (icpt_id _) _ => unfold icpt_id
      | |- rel (apply_input_mapper _ _) _ => unfold apply_input_mapper; flds
      | |- rel (apply_input_icpt _ _) _ => unfold apply_input_icpt; flds
      | |- rel (set_exec_status _ _ _) _ => unfold set_exec_status; flds
      | |- rel (apply_output_icpt _ _) _ => unfold apply_output_icpt; flds
      | |- rel (apply_output_mapper _ _) _ => unfold apply_output_mapper; flds
      | |- rel (handle_accumulation _ _) _ => unfold handle_accumulation; flds
      | |- rel (guard_err _ _) _ => unfold guard_err
      | |- rel (recover_eval _ _) _ => unfold recover_eval
      | |- rel (has_output_icpt _ _) _ => unfold has_output_icpt; flds
      | |- rel (retry_value _ _ _) _ => unfold retry_value; flds
      | |- rel (retry_data _ _ _) _ => unfold retry_data; flds
      | |- rel (retry_bound _) _ => unfold retry_bound
      | |- rel (iterate_on _ _ _) _ => unfold iterate_on; flds
      | |- rel (init_index _) _ => unfold init_index
      | |- rel (update_index _) _ => unfold update_index
      | |- rel (check_cond _ _) _ => unfold check_cond; flds
      end ].

  Lemma rel_done_links t i ls a : rel (done_links E t i ls a) (done_links E' t i ls a).
  Proof. revert a. induction ls as [|l ls IH]; intros a; simpl; [go|]. apply rel_bind; [go|]. intros []; [go|apply IH]. Qed.
  Lemma rel_beh_done t : rel (beh_done E t) (beh_done E' t).
  Proof.
    unfold beh_done. apply rel_bind; [go|]. intros ls. apply rel_bind; [go|]. intros _. apply rel_bind; [go|]. intros x. cbv zeta.
    destruct ls; [go|]. apply rel_bind; [apply rel_done_links|]. intros [e|a]; [go|]. apply rel_bind; [go|]. intros es. go.
  Qed.
  Lemma rel_asserts t id b k l : rel (run_asserts E t id b k l) (run_asserts E' t id b k l).
  Proof. revert k. induction l as [|a l IH]; intros k; cbn [run_asserts]; flds; [go|]. destruct (negb b), (as_empty a), (as_type a =? 1)%Z; go; apply IH. Qed.
  Lemma rel_apply_asserts t ty : rel (apply_asserts E t ty) (apply_asserts E' t ty).
  Proof. unfold apply_asserts; flds. go. apply rel_asserts. Qed.

  Lemma rel_enter_list skip skip' i es : (forall t, rel (skip t) (skip' t)) -> rel (enter_list E skip i es) (enter_list E' skip' i es).
  Proof.
    intros Hs. induction es as [|[tk z] es IH]; cbn [enter_list]; flds; [go|]. apply rel_bind; [go|]. intros t. apply rel_bind; [go|]. intros x.
    destruct (e_conc E && ti_sched x); [done|]. apply rel_bind; [go|]. intros []; [done| |].
    - apply rel_bind; [go|]. intros []; [go|]. apply rel_bind; [go|]. intros _. apply rel_bind; [go|]. intros _. done.
    - apply rel_bind; [done|]. intros _. done.
  Qed.
  Lemma rel_with_lock {A} (m m' : M A) : rel m m' -> rel (with_lock E m) (with_lock E' m').
  Proof. intros Hm. unfold with_lock. flds. destruct (e_conc E); [|done]. apply rel_get. intros s I l _. norm. destruct (s_lock s); [apply rel_here|]. go. Qed.
  Lemma rel_global ent ent' i e : (forall j es, rel (ent j es) (ent' j es)) -> rel (handle_global_error E ent i e) (handle_global_error E' ent' i e).
  Proof. intros He. unfold handle_global_error. go. apply He. Qed.

  (** A flow completes: the only place where the engine reads returned data. *)
  Lemma rel_complete i : rel (complete_flow E i) (complete_flow E' i).
  Proof.
    unfold complete_flow. destruct (Nat.eqb_spec i 0) as [->|Hi]; [go|].
    intros s Ho. apply rel_at_bind; [by apply rel_set_flow_status|]. intros [] s1 Hs1 O1.
    assert (exists y, s_insts s !! i = Some y /\ s1 = p_fstat i FCompleted s) as (y & Hy & ->).
    { revert Hs1. unfold set_flow_status, post_flow_event. rewrite HL. cbv [bind get_inst get]. destruct (s_insts s !! i) as [y|]; [|discriminate].
      cbv [ret upd_inst modify log_ev]. intros H. injection H as <-. exists y. done. }
    apply rel_at_binst; [done|]. intros y1 r Hy1 Hr. assert (y1 = set_i_status FCompleted y) as -> by (cbn in Hy1; rewrite lookup_alter, Hy in Hy1; by injection Hy1 as <-).
    match goal with |- rel_at _ ?m ?m' => assert (Hu : rel m m) by go end.
    destruct Hr as [->|[Hn Hout]]; [rewrite rdata_same; by apply Hu|]. destruct (Hu _ O1) as [[O2 G2] _]. split; [done|]. intros s' _. left.
    eapply bad_grows; [|exact G2]. exists i, (set_i_status FCompleted y), (s_log s), []. split_and!; [done|done| |done|done].
    intros Hret. destruct Ho as (_ & _ & _ & O4). destruct (O4 i Hret) as (y' & Hy' & Hr'). assert (y' = y) as -> by congruence. done.
  Qed.
  Lemma rel_done ent ent' t : (forall j es, rel (ent j es) (ent' j es)) -> rel (handle_task_done E ent t) (handle_task_done E' ent' t).
  Proof.
    intros He. unfold handle_task_done. apply rel_bind; [go|]. intros x. cbv zeta. apply rel_bind.
    { destruct (bool_decide _); go; apply rel_beh_done. }
    intros [e|[nt es]].
    - apply rel_binst; intros m r _; norm. apply rel_bind; [go|]. intros _. by apply rel_global.
    - apply rel_bind; [go|]. intros fd. apply rel_binst; intros y r _; norm. apply rel_bind; [|intros; go].
      destruct (_ || _); [apply rel_complete|]. apply rel_bind; [apply He|intros; go].
  Qed.
  Lemma rel_enter_tasks n i es : rel (enter_tasks E n i es) (enter_tasks E' n i es).
  Proof.
    revert i es. induction n as [|n IH]; intros i es; cbn [enter_tasks]; apply rel_with_lock, rel_enter_list; intros t; [apply rel_fuel|].
    by apply rel_done.
  Qed.
  Lemma rel_enter_top i es : rel (enter_top E i es) (enter_top E' i es).
  Proof. unfold enter_top. apply rel_binst; intros x r _; norm. apply rel_enter_tasks. Qed.
  Lemma rel_handle_error t e : rel (handle_task_error E t e) (handle_task_error E' t e).
  Proof.
    unfold handle_task_error. apply rel_bind; [go|]. intros _. apply rel_bind; [go|]. intros _. apply rel_bind; [go|]. intros r.
    apply rel_bind; [go|]. intros x. cbv zeta. destruct (r.1).
    - apply rel_bind; [go|]. intros _. apply rel_bind; [|intros; go]. destruct (r.2); [go|]. apply rel_bind; [apply rel_enter_top|intros; go].
    - apply rel_binst; intros y r0 _; norm. destruct (i_handling y); [go|]. apply rel_bind; [go|]. intros _. apply rel_global, rel_enter_top.
  Qed.
  Lemma rel_start_instance i m : rel (start_instance E i m) (start_instance E' i m).
  Proof.
    unfold start_instance. apply rel_binst; intros x r0 _; norm. apply rel_bind; [go|]. intros h. apply rel_bind; [go|]. intros _.
    apply rel_bind; [go|]. intros _. apply rel_bind; [go|]. intros _. apply rel_bind; [go|]. intros _. apply rel_bind; [apply rel_enter_top|intros; go].
  Qed.
  Lemma rel_start_subflow t uri ins : rel (start_subflow E t uri ins) (start_subflow E' t uri ins).
  Proof.
    unfold start_subflow. flds. apply rel_bind; [go|]. intros n. destruct (e_def E n uri); [|go..]. apply rel_bind; [go|]. intros i.
    apply rel_bind; [apply rel_start_instance|]. intros _. go.
  Qed.
  (** Replying and returning. *)
  Lemma rel_give s i d ev f : ok s -> is_Some (s_insts s !! i) ->
    (forall x, i_rdata (f x) = d) -> (forall x, i_def (f x) = i_def x) -> (forall x r, f (set_i_rdata r x) = f x) ->
    (forall j, has_returned j (trace s ++ [ev]) -> (j = i -> d <> None) /\ (j <> i -> has_returned j (trace s))) ->
    rel_at s (bind (upd_inst i f) (fun _ => log_ev ev)) (bind (upd_inst i f) (fun _ => log_ev ev)).
  Proof.
    intros (O1 & O2 & O3 & O4) [y Hy] F1 F2 F3 Hr. cbv [rel_at bind upd_inst modify log_ev]. cbn [fst snd].
    assert (Hs : forall j, is_Some (s_insts s !! j) -> is_Some (alter f i (s_insts s) !! j)).
    { intros j [z Hz]. destruct (decide (i = j)) as [->|]; [rewrite lookup_alter, Hz; by eexists|rewrite lookup_alter_ne by done; by eexists]. }
    split.
    - split; [|split; [by exists [ev]|]].
      + split; [|split; [by apply Hs|split; [cbn; intros t x Hx; by eapply Hs, O3|]]].
        * cbn. intros j Hj. destruct (decide (i = j)) as [->|]; [by rewrite lookup_alter, O1|by rewrite lookup_alter_ne, O1].
        * intros j Hj. cbn. unfold trace in *. cbn in Hj. destruct (Hr j Hj) as [H1 H2]. destruct (decide (j = i)) as [->|Hne].
          -- exists (f y). rewrite lookup_alter, Hy. split; [done|]. rewrite F1. by apply H1.
          -- destruct (O4 j (H2 Hne)) as (z & Hz & Hzr). exists z. by rewrite lookup_alter_ne.
      + cbn. intros j z Hz. destruct (decide (i = j)) as [->|]; [exists (f z); by rewrite lookup_alter, Hz, F2|exists z; by rewrite lookup_alter_ne].
    - intros s' (I & l & -> & HI & Hl). right. split; [done|]. exists (alter f i I), (ev :: l). split; [done|]. split; [|cbn; destruct (vis ev); by rewrite Hl].
      cbn. intros j. specialize (HI j). destruct (decide (i = j)) as [->|]; [|by rewrite !lookup_alter_ne]. rewrite !lookup_alter.
      destruct (s_insts s !! j) as [x|]; cbn; [|by rewrite HI]. destruct HI as (r & -> & _). exists (i_rdata (f x)). cbn. rewrite F3.
      split; [|apply rok_refl]. f_equal. symmetry. apply rdata_same.
  Qed.
  Lemma rel_reply i d e : rel (reply i d e) (reply i d e).
  Proof.
    intros s Ho. unfold reply. apply rel_at_binst; [done|]. intros x r Hx _. norm. destruct (i_handler x); [|by apply rel_ret].
    apply (rel_give s i d); [done|by rewrite Hx|done..|]. intros j [[Hj Hn]|(? & ? & ?)]%has_returned_snoc; [|done]. split; [|done]. intros -> ->. by apply Hn.
  Qed.
  Lemma rel_return t d e {A} (k k' : tinst -> M A) : (forall x, rel (k x) (k' x)) ->
    rel (bind (get_ti t) (fun x => bind (return_ (ti_inst x) d e) (fun _ => k x))) (bind (get_ti t) (fun x => bind (return_ (ti_inst x) d e) (fun _ => k' x))).
  Proof.
    intros Hk s Ho. apply rel_at_bind; [by apply rel_get_ti|]. intros x s1 Hs1 _. revert Hs1. cbv [get_ti bind get].
    destruct (s_tis s !! t) as [x0|] eqn:Hx; [|discriminate]. intros H. injection H as <- <-. change (rel_at s (bind (return_ (ti_inst x0) d e) (fun _ => k x0)) (bind (return_ (ti_inst x0) d e) (fun _ => k' x0))).
    apply rel_at_bind; [|intros; by apply Hk]. unfold return_. destruct Ho as (O1 & O2 & O3 & O4). apply (rel_give s _ d); [done|by eapply O3|done..|].
    intros j [[Hj Hn]|(d' & e' & [= -> -> ->])]%has_returned_snoc; [|done]. split; [|done]. intros -> ->. by apply Hn.
  Qed.
  Lemma rel_run_act t a : rel (run_act E t a) (run_act E' t a).
  Proof.
    induction a as [r|n v k IH|m k IH|n v k IH|d e k IH|d e k IH|uri ins k1 IH1 k2 IH2]; cbn [run_act];
      [ | | | | |by apply (rel_return t d e (fun _ => run_act E t k) (fun _ => run_act E' t k))|]; (apply rel_bind; [go|]; intros x).
    1-4: go.
    - apply rel_bind; [apply rel_reply|done].
    - apply rel_bind; [apply rel_start_subflow|]. intros []; done.
  Qed.

  (** *** Evaluating *)
  Lemma rel_call t : rel (call_activity E t) (call_activity E' t).
  Proof.
    unfold call_activity. flds. apply rel_bind; [go|]. intros x. cbv zeta. apply rel_bind; [go|]. intros _. apply rel_bind; [go|]. intros a.
    apply rel_bind; [apply rel_catch; [apply rel_run_act|intros; go]|]. intros [| |e0|msg]; [go|go| |go]. cbv zeta.
    apply rel_bind; [go|]. intros _. apply rel_bind; [go|]. intros _. apply rel_binst; intros y r _; norm. apply rel_bind; [go|]. intros _.
    apply rel_bind; [go|]. intros _. apply rel_bind; [|intros; go]. apply rel_catch; [|intros; go]. apply rel_bind; [apply rel_apply_asserts|intros; go].
  Qed.
  Lemma rel_finish t : rel (finish_activity E t) (finish_activity E' t).
  Proof.
    unfold finish_activity. flds. apply rel_bind; [go|]. intros x. unfold guard_err. apply rel_bind; [go|]. intros []; [go|].
    apply rel_bind; [go|]. intros []; [go|]. apply rel_bind; [go|]. intros []; [go|]. apply rel_bind; [apply rel_apply_asserts|]. intros []; go.
  Qed.
  Lemma rel_eval_activity t : rel (eval_activity E t) (eval_activity E' t).
  Proof.
    unfold eval_activity, recover_eval. flds. apply rel_catch; [|intros; go]. apply rel_bind; [go|]. intros x. destruct (t_act (ti_task x)) as [ac|]; [|go].
    unfold guard_err. apply rel_bind; [go|]. intros []; [go|]. apply rel_bind; [go|]. intros []; [|apply rel_finish].
    apply rel_bind; [go|]. intros []; [go|]. apply rel_bind; [go|]. intros [].
    - apply rel_bind; [go|]. intros _. apply rel_finish.
    - apply rel_bind; [apply rel_call|]. intros [|[]]; [go|apply rel_finish|go].
  Qed.
  Lemma rel_post t : rel (post_eval_activity E t) (post_eval_activity E' t).
  Proof.
    unfold post_eval_activity, recover_eval. flds. apply rel_catch; [|intros; go]. apply rel_bind; [go|]. intros x. cbv zeta. apply rel_bind; [go|]. intros p.
    apply rel_bind.
    - destruct p; [|go]. apply rel_bind; [go|]. intros _. apply rel_bind; [apply rel_run_act|]. intros []; go.
    - intros [e|b]; [go|]. apply rel_bind; [go|]. intros y. destruct (ti_rerr y); [go|]. destruct b; [|go]. unfold guard_err.
      apply rel_bind; [go|]. intros []; [go|]. apply rel_bind; [go|]. intros []; [go|]. apply rel_bind; [apply rel_apply_asserts|]. intros []; go.
  Qed.
  Lemma rel_retry_loop n t r : rel (retry_loop E n t r) (retry_loop E' n t r).
  Proof.
    revert r. induction n as [|n IH]; intros r; cbn [retry_loop]; (apply rel_bind; [go|]); intros x; destruct r as [e|]; [|go| |go];
      destruct (t_retry (ti_task x)) as [rc|]; [|go| |go]; (destruct (retriable e); [|go]); (apply rel_bind; [go|]); intros [e'|[z iv]]; [go| |go|];
      (destruct (0 <? z)%Z; [|go]); [go|]. apply rel_bind; [go|]. intros _. apply rel_bind; [apply rel_eval_activity|]. apply IH.
  Qed.
  Lemma rel_eval_retry t : rel (eval_retry E t) (eval_retry E' t).
  Proof.
    unfold eval_retry. apply rel_bind; [apply rel_eval_activity|]. intros r. apply rel_bind; [go|]. intros x. destruct r as [e|]; [|go].
    destruct (t_retry (ti_task x)) as [rc|]; [|go]. destruct (retriable e); [|go]. apply rel_bind; [go|]. intros []; [go|].
    apply rel_bind; [go|]. intros n. apply rel_retry_loop.
  Qed.
  Lemma rel_iter_step t it : rel (iter_step E t it) (iter_step E' t it).
  Proof.
    unfold iter_step. destruct (iter_next it) as [it' o]. apply rel_bind; [go|]. intros _. destruct o as [[[k v] ix]|]; [|go].
    apply rel_bind; [go|]. intros _. apply rel_bind; [apply rel_eval_retry|]. intros [|[]]; go.
  Qed.
  Lemma rel_beh_eval ty t : rel (beh_eval E ty t) (beh_eval E' ty t).
  Proof.
    destruct ty; cbn [beh_eval].
    - unfold basic_eval. apply rel_bind; [go|]. intros x. destruct (bool_decide _); [go|]. apply rel_bind; [apply rel_eval_retry|intros; go].
    - unfold iter_eval. flds. apply rel_bind; [go|]. intros x. destruct (bool_decide _); [go|]. destruct (ti_wd x !! "_iterator") as [[]|]; try (by go).
      + apply rel_iter_step.
      + destruct (t_loop (ti_task x)); [|go]. apply rel_bind; [go|]. intros [|v]; [go|]. destruct v; try (by go); (destruct (make_iter E _); [|go]);
        (apply rel_bind; [go|]; intros _; apply rel_bind; [go|]; intros _; apply rel_iter_step).
    - unfold dw_eval. apply rel_bind; [go|]. intros x. destruct (bool_decide _); [go|]. apply rel_bind; [go|]. intros _.
      apply rel_bind; [apply rel_eval_retry|]. intros [|[]]; go.
  Qed.
  Lemma rel_beh_post ty t : rel (beh_post E ty t) (beh_post E' ty t).
  Proof.
    destruct ty; cbn [beh_post].
    - unfold basic_post. apply rel_bind; [apply rel_post|]. intros r. apply rel_bind; [go|]. intros x. destruct r as [e|]; [|go].
      destruct e; try (by go). destruct (t_retry (ti_task x)); [|go]. apply rel_bind; [go|]. intros [|[z iv]]; [go|].
      destruct (0 <? z)%Z; [|go]. apply rel_bind; [go|]. intros _. apply rel_bind; [apply rel_eval_retry|intros; go].
    - unfold iter_post. apply rel_bind; [apply rel_post|]. intros []; go.
    - unfold dw_post. apply rel_bind; [go|]. intros _. apply rel_bind; [apply rel_post|]. intros []; go.
  Qed.
  Lemma rel_recover t m : rel (exec_recover E t m) (exec_recover E' t m).
  Proof.
    unfold exec_recover. apply rel_bind; [go|]. intros x. apply rel_binst; intros y r _; norm. cbv zeta. destruct (i_handling y); [go|].
    apply rel_bind; [go|]. intros _. apply rel_global, rel_enter_top.
  Qed.
  Lemma rel_exec t : rel (exec_task E t) (exec_task E' t).
  Proof.
    unfold exec_task. apply rel_catch; [|apply rel_recover]. unfold exec_body. apply rel_bind; [go|]. intros x. cbv zeta.
    assert (Hd : forall t, rel (task_done E t) (task_done E' t)) by (intros; apply rel_done, rel_enter_top).
    destruct (bool_decide _); [go|]. apply rel_bind; [destruct (bool_decide _); [apply rel_beh_post|apply rel_beh_eval]|].
    intros [e|[]]; try apply Hd; try (by go). apply rel_handle_error.
  Qed.
  Lemma rel_do_step : rel (do_step E) (do_step E').
  Proof.
    unfold do_step. apply rel_bind; [go|]. intros _. apply rel_binst; intros x r _; norm. destruct (bool_decide _); [|go].
    apply rel_get; intros s I l _; norm. destruct (s_queue s) as [|[w t] q]; [go|]. apply rel_bind; [go|]. intros y. apply rel_bind; [go|]. intros _.
    apply rel_bind; [go|]. intros _. apply rel_bind; [apply rel_exec|intros; go].
  Qed.

  (** *** The run *)
  Lemma rel_record_r : rel (ret tt) (if e_ext E' then record_state E' else ret tt).
  Proof.
    assert (H : forall s, record_state E s = (Ok tt, s)).
    { intros s. destruct HR as (m & Hm & [?|[H1 H2]]); [congruence|]. unfold record_state. by rewrite Hm, H1, H2. }
    destruct (e_ext E'); [|apply rel_ret]. intros s Ho. pose proof (rel_record s Ho) as Hr. unfold rel_at in *. rewrite H in Hr. exact Hr.
  Qed.
  Lemma rel_run_loop n k : rel (run_loop E n k) (run_loop E' n k).
  Proof.
    revert k. induction n as [|n IH]; intros k; cbn [run_loop]; [go|]. apply rel_binst; intros x r _; norm. destruct (_ <? _)%Z; [|go].
    apply rel_bind; [apply rel_do_step|]. intros more. rewrite HX. apply rel_bind; [apply rel_record_r|]. intros _. destruct more; [apply IH|go].
  Qed.
  Lemma flow_state_r e s s' : ok s -> sim s s' -> vis e = None -> exists s1, bind flow_state (fun _ => log_ev e) s' = (Ok tt, s1) /\ sim s s1.
  Proof.
    intros (_ & O2 & _) Hs He. destruct (sim_return_r 0 s s' Hs O2) as (r & s1 & Hr & Hs1). exists (p_log e s1). split; [|by apply sim_log_r].
    unfold flow_state, bind. by rewrite Hr.
  Qed.
  Lemma rel_prepare ro ins : rel (run_prepare E ro ins) (run_prepare E' ro ins).
  Proof.
    unfold run_prepare. rewrite HX. apply rel_bind.
    { intros s Ho. split; [split; [done|apply grows_refl]|]. intros s' Hs. right. change (e_ext E') with xb. destruct xb; [|done].
      by destruct (flow_state_r EvRecStart s s' Ho Hs eq_refl) as (s1 & -> & H1). }
    intros _. apply rel_bind; [go|]. intros _. apply rel_bind; [apply rel_start_instance|]. intros _. apply rel_bind; [go|]. intros _.
    destruct (ro_init ro <=? 0)%Z; [apply rel_record_r|]. destruct (e_ext E'); [|apply rel_ret]. intros s Ho. split; [split; [done|apply grows_refl]|].
    intros s' Hs. right. split; [done|]. by apply sim_log_r.
  Qed.
  Lemma rel_head ro : rel (run_head E ro) (run_head E' ro).
  Proof. unfold run_head. flds. go. Qed.

  (** The end of the run. *)
  Definition calm (s s' : st) : Prop := grows s s' /\
    (exists l, s_log s' = l ++ s_log s /\ Forall (fun e => forall i d x, e <> EvReturn i (Some d) x) l) /\
    (forall y, s_insts s !! 0%nat = Some y -> exists y', s_insts s' !! 0%nat = Some y' /\ i_status y' = i_status y /\ i_def y' = i_def y).
  Definition bad2 (s : st) : Prop := exists y, s_insts s !! 0%nat = Some y /\ i_status y = FCompleted /\ ~ no_outputs (i_def y) /\ ~ has_returned 0 (trace s).
  Definition un {A} (m : M A) : Prop := forall s, ok s -> ok (m s).2 /\ calm s (m s).2.
  Lemma calm_refl s : calm s s.
  Proof using. clear. split; [apply grows_refl|]. split; [exists []; split; [done|constructor]|eauto]. Qed.
  Lemma calm_trans a b c : calm a b -> calm b c -> calm a c.
  Proof using.
    clear. intros (G1 & (l1 & H1 & F1) & D1) (G2 & (l2 & H2 & F2) & D2). split; [by eapply grows_trans|]. split.
    - exists (l2 ++ l1). rewrite H2, H1, app_assoc. split; [done|]. by apply Forall_app.
    - intros y Hy. destruct (D1 y Hy) as (y1 & Hy1 & A1 & B1). destruct (D2 y1 Hy1) as (y2 & Hy2 & A2 & B2). exists y2. split_and!; congruence.
  Qed.
  Lemma bad2_calm s s' : bad2 s -> calm s s' -> bad2 s'.
  Proof using.
    clear. intros (y & Hy & Hc & Hn & Hr) (_ & (l & Hl & F) & D). destruct (D y Hy) as (y' & Hy' & A & B). exists y'. split_and!; [done|congruence|by rewrite B|].
    intros H. apply Hr. unfold trace in *. rewrite Hl, rev_app_distr in H. clear - H F. induction l as [|e l IH]; [by rewrite app_nil_r in H|].
    inversion F; subst. cbn in H. rewrite app_assoc in H. apply has_returned_snoc in H as [[H _]|(d & x & ->)]; [by apply IH|]. by destruct (H2 0%nat d x).
  Qed.
  Lemma un_ret {A} (a : A) : un (ret a).
  Proof using. clear. intros s Ho. split; [done|apply calm_refl]. Qed.
  Lemma un_panic {A} e : un (panic (A:=A) e).
  Proof using. clear. intros s Ho. split; [done|apply calm_refl]. Qed.
  Lemma un_bind {A B} (m : M A) (k : A -> M B) : un m -> (forall a, un (k a)) -> un (bind m k).
  Proof using.
    clear. intros Hm Hk s Ho. destruct (Hm s Ho) as [O1 C1]. unfold bind. destruct (m s) as [[a| | |] s1]; cbn [snd] in *; try done.
    destruct (Hk a s1 O1) as [O2 C2]. split; [done|by eapply calm_trans].
  Qed.
  Lemma un_log e : (forall i d x, e <> EvReturn i (Some d) x) -> un (log_ev e).
  Proof using.
    clear. intros He s Ho. split; [by apply ok_log|]. split; [apply grows_log|]. split; [exists [e]; split; [done|by repeat constructor]|]. eauto.
  Qed.
  Lemma un_get_inst i : un (get_inst i).
  Proof using. clear. intros s Ho. cbv [get_inst bind get]. destruct (s_insts s !! i); (split; [done|apply calm_refl]). Qed.
  Lemma un_tick : un tick.
  Proof using. clear. intros s Ho. split; [exact Ho|]. split; [split; [by exists []|cbn; eauto]|]. split; [exists []; split; [done|constructor]|cbn; eauto]. Qed.
  Lemma un_upd f : (forall x, i_def (f x) = i_def x /\ i_status (f x) = i_status x /\ (i_rdata x <> None -> i_rdata (f x) <> None)) -> un (upd_inst 0%nat f).
  Proof using.
    clear. intros Hf s (O1 & O2 & O3 & O4). cbv [upd_inst modify]. cbn [snd].
    assert (Hs : forall j, is_Some (s_insts s !! j) -> is_Some (alter f 0%nat (s_insts s) !! j)).
    { intros j [z Hz]. destruct (decide (0%nat = j)) as [<-|]; [rewrite lookup_alter, Hz; by eexists|rewrite lookup_alter_ne by done; by eexists]. }
    split; [split; [|split; [by apply Hs|split; [cbn; intros t x Hx; by eapply Hs, O3|]]]|split; [split; [by exists []|]|split; [exists []; split; [done|constructor]|]]]; cbn.
    - intros j Hj. destruct (decide (0%nat = j)) as [<-|]; [lia|by rewrite lookup_alter_ne, O1].
    - intros j Hj. destruct (O4 j Hj) as (z & Hz & Hzr). destruct (decide (0%nat = j)) as [<-|].
      + exists (f z). rewrite lookup_alter, Hz. split; [done|]. by apply Hf.
      + exists z. by rewrite lookup_alter_ne.
    - intros j z Hz. destruct (decide (0%nat = j)) as [<-|]; [exists (f z); rewrite lookup_alter, Hz; split; [done|apply Hf]|exists z; by rewrite lookup_alter_ne].
    - intros z Hz. exists (f z). rewrite lookup_alter, Hz. destruct (Hf z) as (? & ? & _). done.
  Qed.
  Lemma un_set_attrs tr m : un (set_attrs tr 0%nat m).
  Proof using. clear. unfold set_attrs. apply un_bind; [apply un_get_inst|]. intros _. apply un_bind; [by apply un_upd|]. intros _. by apply un_log. Qed.
  Lemma un_return_data : un (get_return_data 0%nat).
  Proof using.
    clear. unfold get_return_data. apply un_bind; [apply un_get_inst|]. intros x. destruct (i_rdata x); [apply un_ret|].
    destruct (d_md (i_def x)) as [[? [mdo|]]|]; [|apply un_ret..]. apply un_bind; [by apply un_upd|]. intros _. apply un_ret.
  Qed.
  Lemma un_flow_asserts id ty b k l f : un (flow_asserts E id ty b k l f).
  Proof using.
    clear. revert k f. induction l as [|a l IH]; intros k f; cbn [flow_asserts]; [apply un_ret|]. destruct (negb b); [apply un_bind; [by apply un_log|done]|].
    destruct (as_empty a); [apply un_bind; [by apply un_log|done]|]. apply un_bind.
    { unfold ext_flow. apply un_bind; [apply un_tick|]. intros n. apply un_bind; [apply un_get_inst|]. intros y. apply un_ret. }
    intros []; [apply un_bind; [by apply un_log|done]|apply un_bind; [by apply un_log|done]|apply un_panic].
  Qed.
  Lemma un_apply_flow_asserts ty : un (apply_flow_asserts E ty).
  Proof using.
    clear. unfold apply_flow_asserts. apply un_bind; [apply un_get_inst|]. intros x. cbv zeta. destruct (task_icpt E _); [|apply un_ret].
    apply un_bind; [by apply un_log|]. intros _. apply un_flow_asserts.
  Qed.
  Lemma rel_flow_asserts id ty b k l f : rel (flow_asserts E id ty b k l f) (flow_asserts E' id ty b k l f).
  Proof.
    revert k f. induction l as [|a l IH]; intros k f; cbn [flow_asserts]; flds; [go|]. destruct (negb b); [apply rel_bind; [go|done]|].
    destruct (as_empty a); [apply rel_bind; [go|done]|]. apply rel_bind.
    { unfold ext_flow. apply rel_bind; [go|]. intros n. apply rel_binst; intros y r _; norm. go. }
    intros []; [apply rel_bind; [go|done]|apply rel_bind; [go|done]|go].
  Qed.
  Lemma rel_apply_flow_asserts ty : rel (apply_flow_asserts E ty) (apply_flow_asserts E' ty).
  Proof.
    unfold apply_flow_asserts. apply rel_binst; intros x r _; norm. cbv zeta. destruct (task_icpt E _); [|go].
    apply rel_bind; [go|]. intros _. apply rel_flow_asserts.
  Qed.

  Definition relf {A} (s : st) (m m' : M A) : Prop :=
    forall s', sim s s' -> bad (m s).2 \/ bad2 (m s).2 \/ ((m' s').1 = (m s).1 /\ sim (m s).2 (m' s').2).
  Lemma relf_rel {A} s (m m' : M A) : rel_at s m m' -> relf s m m'.
  Proof using. clear. intros [_ H] s' Hs. destruct (H s' Hs); auto. Qed.
  Definition gro {A} (m : M A) : Prop := forall s, ok s -> ok (m s).2 /\ grows s (m s).2.
  Lemma gro_rel {A} (m m' : M A) : rel m m' -> gro m.
  Proof using. clear. intros H s Ho. by apply (H s Ho). Qed.
  Lemma gro_un {A} (m : M A) : un m -> gro m.
  Proof using. clear. intros H s Ho. destruct (H s Ho) as [? [? _]]. done. Qed.
  Lemma gro_bind {A B} (m : M A) (k : A -> M B) : gro m -> (forall a, gro (k a)) -> gro (bind m k).
  Proof using.
    clear. intros Hm Hk s Ho. destruct (Hm s Ho) as [O1 C1]. unfold bind. destruct (m s) as [[a| | |] s1]; cbn [snd] in *; try done.
    destruct (Hk a s1 O1) as [O2 C2]. split; [done|by eapply grows_trans].
  Qed.
  Lemma gro_finally (m : M unit) f : gro m -> gro f -> gro (finally m f).
  Proof using.
    clear. intros Hm Hf. unfold finally. apply gro_bind; [|intros r; apply gro_bind; [done|intros _; destruct r; apply gro_un; (apply un_ret || apply un_panic)]].
    intros s Ho. destruct (Hm s Ho) as [O1 C1]. cbv [catch bind ret]. destruct (m s) as [[]?]; cbn in *; done.
  Qed.
  Lemma relf_bind {A B} s (m m' : M A) (k k' : A -> M B) : rel_at s m m' -> (forall a, gro (k a)) ->
    (forall a s1, m s = (Ok a, s1) -> ok s1 -> relf s1 (k a) (k' a)) -> relf s (bind m k) (bind m' k').
  Proof using.
    clear. intros [[O1 G1] S1] Hu Hk s' Hs. specialize (S1 s' Hs). unfold bind. destruct (m s) as [[a| | |] s1]; cbn [fst snd] in *.
    - destruct S1 as [B1|[E1 Hs1]]; [left; eapply bad_grows; [done|]; by apply Hu|]. destruct (m' s') as [o s1']. cbn in E1, Hs1. subst o. by apply (Hk a s1).
    - destruct S1 as [B1|[E1 Hs1]]; [by left|right; right]. destruct (m' s') as [o s1']. cbn in E1, Hs1. by subst o.
    - destruct S1 as [B1|[E1 Hs1]]; [by left|right; right]. destruct (m' s') as [o s1']. cbn in E1, Hs1. by subst o.
    - destruct S1 as [B1|[E1 Hs1]]; [by left|right; right]. destruct (m' s') as [o s1']. cbn in E1, Hs1. by subst o.
  Qed.
  Lemma un_finish ro k : un (run_finish E ro k).
  Proof.
    unfold run_finish. rewrite HX. apply un_bind; [apply un_get_inst|]. intros x. destruct (_ && _); [by apply un_log|]. apply un_bind; [|intros; apply un_ret].
    destruct (_ =? _)%Z.
    - apply un_bind; [apply un_return_data|]. intros r. apply un_bind; [destruct r.1; [apply un_set_attrs|apply un_ret]|]. intros _.
      apply un_bind; [apply un_apply_flow_asserts|]. intros _. by apply un_log.
    - destruct (_ =? _)%Z; [|apply un_ret]. apply un_bind; [apply un_apply_flow_asserts|]. intros b. apply un_bind; [destruct b; [by apply un_log|apply un_ret]|]. intros _.
      apply un_bind; [apply un_get_inst|]. intros y. by apply un_log.
  Qed.
  Lemma relf_bind2 {A B} s (m m' : M A) (k k' : A -> M B) : ok s -> un m -> relf s m m' -> (forall a, un (k a)) ->
    (forall a, rel (k a) (k' a)) -> relf s (bind m k) (bind m' k').
  Proof using.
    clear. intros Ho Hm S1 Hu Hk s' Hs. specialize (S1 s' Hs). destruct (Hm s Ho) as [O1 _]. unfold bind. destruct (m s) as [[a| | |] s1]; cbn [fst snd] in *.
    - destruct (Hu a s1 O1) as [_ C]. destruct S1 as [B1|[B1|[E1 Hs1]]]; [left; eapply bad_grows; [done|]; by apply C|right; left; by eapply bad2_calm|].
      destruct (m' s') as [o s1']. cbn in E1, Hs1. subst o. destruct (Hk a s1 O1) as [_ H]. destruct (H s1' Hs1); auto.
    - destruct S1 as [B1|[B1|[E1 Hs1]]]; [by left|by right; left|right; right]. destruct (m' s') as [o s1']. cbn in E1, Hs1. by subst o.
    - destruct S1 as [B1|[B1|[E1 Hs1]]]; [by left|by right; left|right; right]. destruct (m' s') as [o s1']. cbn in E1, Hs1. by subst o.
    - destruct S1 as [B1|[B1|[E1 Hs1]]]; [by left|by right; left|right; right]. destruct (m' s') as [o s1']. cbn in E1, Hs1. by subst o.
  Qed.
  Lemma relf_binst {A} s (k k' : inst -> M A) : ok s ->
    (forall x r, s_insts s !! 0%nat = Some x -> rok x r -> relf s (k x) (k' (set_i_rdata r x))) -> relf s (bind (get_inst 0%nat) k) (bind (get_inst 0%nat) k').
  Proof using.
    clear. intros (_ & [x Hx] & _) H s' Hs. destruct (sim_inst _ _ _ _ Hs Hx) as (r & Hx' & Hr). specialize (H x r Hx Hr s' Hs).
    unfold bind, get_inst, bind, get. rewrite Hx, Hx'. exact H.
  Qed.
  Lemma relf_completed s x : ok s -> s_insts s !! 0%nat = Some x -> i_status x = FCompleted ->
    let B E := bind (get_return_data 0%nat) (fun r => bind (match r.1 with Some d => set_values E 0%nat d | None => ret tt end) (fun _ =>
      bind (apply_flow_asserts E 1) (fun _ => log_ev (EvResult r.1 r.2)))) in
    relf s (B E) (B E').
  Proof.
    intros Ho Hx Hc B s' Hs. destruct (sim_inst _ _ _ _ Hs Hx) as (r & Hx' & Hr). subst B. cbv beta.
    assert (Hu : forall r, un (bind (match r.1 with Some d => set_values E 0%nat d | None => ret tt end) (fun _ : unit =>
      bind (apply_flow_asserts E 1) (fun _ => log_ev (EvResult r.1 r.2))))).
    { intros o. apply un_bind; [destruct o.1; [apply un_set_attrs|apply un_ret]|]. intros _.
      apply un_bind; [apply un_apply_flow_asserts|]. intros _. by apply un_log. }
    destruct Hr as [->|[Hn Hout]].
    - assert (exists v s1 s1', get_return_data 0%nat s = (Ok v, s1) /\ get_return_data 0%nat s' = (Ok v, s1') /\ sim s1 s1') as (v & s1 & s1' & H1 & H2 & Hs1).
      { rewrite rdata_same in Hx'. cbv [get_return_data bind get_inst get ret]. rewrite Hx, Hx'. destruct (i_rdata x) eqn:Hr; [by eexists _, _, _|].
        destruct (d_md (i_def x)) as [[mi [mdo|]]|]; [|by eexists _, _, _..]. eexists _, _, _. split; [reflexivity|]. split; [reflexivity|].
        destruct Hs as (I & l & -> & HI & Hl). cbn in Hx'. exists (alter (set_i_rdata (Some (make_rdata mdo (i_attrs x)))) 0%nat I), l.
        split; [done|]. split; [|done]. intros j. destruct (decide (0%nat = j)) as [<-|]; cbn.
        - rewrite !lookup_alter, Hx, Hx'. cbn. eexists. split; [by rewrite rdata_same|apply rok_refl].
        - rewrite !lookup_alter_ne by done. apply HI. }
      assert (Hb : forall B (k : _ -> M B) o o1, get_return_data 0%nat o = (Ok v, o1) -> bind (get_return_data 0%nat) k o = k v o1) by (intros B k o o1 Hg; unfold bind; by rewrite Hg).
      rewrite (Hb _ _ _ _ H1), (Hb _ _ _ _ H2). destruct (un_return_data s Ho) as [O1 _]. rewrite H1 in O1.
      match goal with |- bad (?m s1).2 \/ _ \/ ((?m' s1').1 = _ /\ _) => assert (Hr : rel m m') end; [|destruct (Hr s1 O1) as [_ H]; destruct (H s1' Hs1); auto].
      apply rel_bind; [destruct v.1; [go|apply rel_ret]|]. intros _. apply rel_bind; [apply rel_apply_flow_asserts|]. intros _. go.
    - right; left. eapply bad2_calm; [|apply (un_bind _ _ un_return_data Hu s Ho)]. exists x. split_and!; [done..|]. intros H.
      destruct Ho as (_ & _ & _ & O4). destruct (O4 _ H) as (y & Hy & Hyr). congruence.
  Qed.
  Lemma relf_finish ro k s : ok s -> relf s (run_finish E ro k) (run_finish E' ro k).
  Proof.
    intros Ho. unfold run_finish. rewrite HX. change (limit_err E' ro) with (limit_err E ro). apply relf_binst; [done|]. intros x r Hx _; norm.
    destruct (_ && _); [apply relf_rel; revert s Ho Hx; fold (rel (log_ev (EvResult None (Some (limit_err E ro)))) (log_ev (EvResult None (Some (limit_err E ro))))); intros s Ho _; by apply rel_log|].
    apply relf_bind2; [done| | |intros; apply un_ret|].
    - destruct (_ =? _)%Z.
      + apply un_bind; [apply un_return_data|]. intros v. apply un_bind; [destruct v.1; [apply un_set_attrs|apply un_ret]|]. intros _.
        apply un_bind; [apply un_apply_flow_asserts|]. intros _. by apply un_log.
      + destruct (_ =? _)%Z; [|apply un_ret]. apply un_bind; [apply un_apply_flow_asserts|]. intros b. apply un_bind; [destruct b; [by apply un_log|apply un_ret]|]. intros _.
        apply un_bind; [apply un_get_inst|]. intros y. by apply un_log.
    - destruct (i_status x =? FCompleted)%Z eqn:Hc; [apply Z.eqb_eq in Hc; by eapply relf_completed|]. apply relf_rel.
      match goal with |- rel_at _ ?m ?m' => assert (Hr : rel m m') end; [|by apply Hr]. clear Hc. destruct (i_status x =? FFailed)%Z; [|go].
      apply rel_bind; [apply rel_apply_flow_asserts|]. intros b. apply rel_bind; [destruct b; go|]. intros _. apply rel_binst; intros y r' _; norm. go.
    - intros _ s1 O1. split; [split; [done|apply grows_refl]|]. intros s1' Hs1. right. change (e_ext E') with xb. destruct xb; [|done].
      by destruct (flow_state_r EvRecDone s1 s1' O1 Hs1 eq_refl) as (s2 & -> & H2).
  Qed.
  Lemma relf_finally s (m m' : M unit) (f : M unit) : relf s m m' -> (f = ret tt \/ f = log_ev EvHandlerDone) -> relf s (finally m f) (finally m' f).
  Proof using.
    clear. intros H Hf s' Hs. specialize (H s' Hs). cbv [finally bind catch ret].
    assert (Hu : forall o, bad o \/ bad2 o -> bad (f o).2 \/ bad2 (f o).2).
    { intros o. destruct Hf as [->| ->]; [done|]. intros [Hb|Hb]; [left; eapply bad_grows; [done|apply grows_log]|right; eapply bad2_calm; [done|]].
      split; [apply grows_log|]. split; [exists [EvHandlerDone]; split; [done|by repeat constructor]|eauto]. }
    assert (Hok : forall o, (f o).1 = Ok tt) by (intros o; by destruct Hf as [->| ->]).
    assert (Hsf : forall o o', sim o o' -> sim (f o).2 (f o').2) by (intros o o' Ho; destruct Hf as [->| ->]; [done|by apply sim_log]).
    destruct (m s) as [[a|e| |] s1]; destruct (m' s') as [o s1']; cbn [fst snd] in *.
    - destruct H as [H|[H|[-> H]]].
      + destruct (f s1) as [[]?] eqn:Hs1; specialize (Hu s1 (or_introl H)); specialize (Hok s1); rewrite Hs1 in *; cbn in *; [|done..]. destruct Hu; [by left|by right; left].
      + destruct (f s1) as [[]?] eqn:Hs1; specialize (Hu s1 (or_intror H)); specialize (Hok s1); rewrite Hs1 in *; cbn in *; [|done..]. destruct Hu; [by left|by right; left].
      + right; right. pose proof (Hok s1) as K1. pose proof (Hok s1') as K2. specialize (Hsf _ _ H). destruct (f s1) as [[]?], (f s1') as [[]?]; cbn in *; done.
    - destruct H as [H|[H|[-> H]]].
      + destruct (f s1) as [[]?] eqn:Hs1; specialize (Hu s1 (or_introl H)); specialize (Hok s1); rewrite Hs1 in *; cbn in *; [|done..]. destruct Hu; [by left|by right; left].
      + destruct (f s1) as [[]?] eqn:Hs1; specialize (Hu s1 (or_intror H)); specialize (Hok s1); rewrite Hs1 in *; cbn in *; [|done..]. destruct Hu; [by left|by right; left].
      + right; right. pose proof (Hok s1) as K1. pose proof (Hok s1') as K2. specialize (Hsf _ _ H). destruct (f s1) as [[]?], (f s1') as [[]?]; cbn in *; done.
    - destruct H as [H|[H|[-> H]]]; auto.
    - destruct H as [H|[H|[-> H]]]; auto.
  Qed.
  Lemma ok_init d uri : ok (init_st d uri).
  Proof using.
    clear. split; [|split; [by eexists|split]].
    - cbn. intros i Hi. rewrite lookup_singleton_ne; [done|lia].
    - cbn. intros t x H. by rewrite lookup_empty in H.
    - intros i (a & v & e & b & H & _). unfold trace in H. cbn in H. destruct a as [|? [|? a]]; cbn in H; discriminate H.
  Qed.
  Lemma gro_body ro : gro (run_body E ro).
  Proof.
    unfold run_body. apply gro_bind; [eapply gro_rel, rel_head|]. intros _. apply gro_finally; [cbv zeta; apply gro_bind; [eapply gro_rel, rel_run_loop|intros; apply gro_un, un_finish]|].
    destruct (ro_detach ro); apply gro_un; [apply un_ret|by apply un_log].
  Qed.
  Lemma relf_body ro s : ok s -> relf s (run_body E ro) (run_body E' ro).
  Proof.
    intros Ho. unfold run_body. apply relf_bind; [by apply rel_head| |].
    { intros _. apply gro_finally; [cbv zeta; apply gro_bind; [eapply gro_rel, rel_run_loop|intros; apply gro_un, un_finish]|].
      destruct (ro_detach ro); apply gro_un; [apply un_ret|by apply un_log]. }
    intros _ s1 _ O1. apply relf_finally; [|destruct (ro_detach ro); auto]. cbv zeta. apply relf_bind; [by apply rel_run_loop|intros; apply gro_un, un_finish|].
    intros k s2 _ O2. by apply relf_finish.
  Qed.
  Lemma relf_run ro ins s : ok s -> relf s (run_action E ro ins) (run_action E' ro ins).
  Proof.
    intros Ho. unfold run_action. apply relf_bind; [by apply rel_prepare|intros; apply gro_body|]. intros _ s1 _ O1. by apply relf_body.
  Qed.

  Lemma same_run ro d uri ins : all_return (run_flow E ro d uri ins).2 ->
    (run_flow E' ro d uri ins).1 = (run_flow E ro d uri ins).1 /\ sim (run_flow E ro d uri ins).2 (run_flow E' ro d uri ins).2.
  Proof.
    intros [A1 A2]. unfold run_flow in *. destruct (relf_run ro ins (init_st d uri) (ok_init d uri) _ (sim_refl _)) as [B|[B|H]]; [exfalso..|done].
    - destruct B as (i & y & l1 & l2 & Hi & Hl & Hr & Hy & Ho). destruct (A1 i y (rev l1) (rev l2) Hi) as [H|H]; [|done..].
      unfold trace. rewrite Hl, rev_app_distr. cbn. by rewrite <- app_assoc.
    - destruct B as (y & Hy & Hc & Ho & Hr). destruct (A2) with (y := y) as [H|H]; [|done..]. unfold main_status. rewrite Hy. cbn. by rewrite Hc.
  Qed.
End Rel.

(** What two similar runs have in common. *)
Lemma omap_vis {B} (f : event -> option B) l l' : (forall e, f e = vis e ≫= f) -> omap vis l = omap vis l' -> omap f (rev l) = omap f (rev l').
Proof.
  intros Hf H. assert (K : forall l : list event, omap f l = omap f (omap vis l)).
  { clear - Hf. induction l as [|e l IH]; [done|]. cbn. rewrite Hf. destruct (vis e); cbn; [|done]. destruct (f e0); by rewrite IH. }
  assert (R : forall l : list event, omap f (rev l) = rev (omap f l)).
  { clear. induction l as [|e l IH]; [done|]. cbn. rewrite omap_app, IH. cbn. destruct (f e); [done|by rewrite app_nil_r]. }
  by rewrite !R, (K l), (K l'), H.
Qed.
Lemma sim_same s s' : sim s s' ->
  delivered s' = delivered s /\ evaluations s' = evaluations s /\ done_signals s' = done_signals s /\ (forall i, statuses i s' = statuses i s) /\
  (forall i k, attr_of s' i k = attr_of s i k) /\ s_tis s' = s_tis s.
Proof.
  intros (I & l & -> & HI & Hl). split_and!; [..|done].
  - unfold delivered, trace. apply omap_vis; [by intros []|done].
  - unfold evaluations, trace. apply omap_vis; [by intros []|done].
  - unfold done_signals, trace. apply omap_vis; [by intros []|done].
  - intros i. unfold statuses, trace. apply omap_vis; [by intros []|done].
  - intros i k. unfold attr_of. cbn. specialize (HI i). destruct (s_insts s !! i); [|by rewrite HI]. by destruct HI as (r & -> & _).
Qed.
Lemma same_result E lb rb xb tb ro d uri ins : e_listener E = false -> e_ext E = false -> recordable E ->
  let E' := observing lb rb xb tb E in recordable E' -> all_return (run_flow E ro d uri ins).2 ->
  let r := run_flow E ro d uri ins in let r' := run_flow E' ro d uri ins in
  r'.1 = r.1 /\ delivered r'.2 = delivered r.2 /\ evaluations r'.2 = evaluations r.2 /\ done_signals r'.2 = done_signals r.2 /\
  (forall i, statuses i r'.2 = statuses i r.2) /\ (forall i k, attr_of r'.2 i k = attr_of r.2 i k) /\ s_tis r'.2 = s_tis r.2.
Proof. intros HL HX HR E' HR' Ha. cbv zeta. destruct (same_run E lb rb xb tb HL HX HR HR' ro d uri ins Ha) as [H1 H2]. split; [done|]. by apply sim_same. Qed.
