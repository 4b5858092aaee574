(** Which attributes of a flow a step leaves alone. No Go counterpart (proofs). *)
From Verif Require Export Values.
Local Open Scope Z_scope.

(** Attribute [k] of flow [i] is kept. *)
Definition kept (i : nat) (k : string) (s s' : st) : Prop :=
  is_Some (s_insts s !! i) -> is_Some (s_insts s' !! i) /\ attr_of s' i k = attr_of s i k.
Lemma kept_refl i k s : kept i k s s.
Proof. done. Qed.
Lemma kept_trans i k a b c : kept i k a b -> kept i k b c -> kept i k a c.
Proof. intros H1 H2 Ha. destruct (H1 Ha) as [Hb A1]. destruct (H2 Hb) as [Hc A2]. split; [done|congruence]. Qed.
Lemma kept_same i k s s' : s_insts s' = s_insts s -> kept i k s s'.
Proof. intros H Hs. unfold attr_of. by rewrite H. Qed.
Lemma kept_inst i k j f s : (forall y, i_attrs (f y) !! k = i_attrs y !! k) \/ j <> i -> kept i k s (p_inst j f s).
Proof.
  intros Hf [y Hy]. unfold attr_of. destruct (decide (j = i)) as [->|Hne].
  - destruct Hf as [Hf|]; [|done]. rewrite p_inst_at, Hy. split; [eauto|]. apply Hf.
  - rewrite p_inst_ne, Hy by done. eauto.
Qed.
Lemma kept_set i k tr j m s : m !! k = None \/ j <> i -> kept i k s (p_set tr j m s).
Proof.
  intros Hm. eapply (kept_trans i k s (p_inst j (fun x => set_i_attrs (m ∪ i_attrs x) x) s)); [|by apply kept_same].
  apply kept_inst. destruct Hm as [Hm|?]; [left|by right]. intros y. cbn. by rewrite lookup_union_r.
Qed.

Lemma ops_kept i k : ~ error_name k -> ops (kept i k).
Proof.
  intros Hk. split.
  - apply kept_refl.
  - apply kept_trans.
  - intros e s _. by apply kept_same.
  - intros j f s Hf. apply kept_inst. left. intros y. by destruct (Hf y) as (_ & _ & ->).
  - intros tr j m s Hm. apply kept_set. left. destruct (m !! k) eqn:H; [|done]. by destruct Hk, (Hm k v H); [left|right].
  - intros j z s _. eapply (kept_trans _ _ _ (p_inst j (set_i_status z) s)); [|by apply kept_same]. apply kept_inst. by left.
  - intros t f s _. by apply kept_same.
  - intros x s. by apply kept_same.
  - intros s s' Hi _ _ _ _. by apply kept_same.
Qed.

(** Attribute [k] is not one an evaluation of task [id] gives values to. *)
Definition foreign (id k : string) : Prop := ~ error_name k /\ k <> all_key id /\ forall n, k <> out_key id n.

Lemma foreign_names id k m : foreign id k -> eval_names id m -> m !! k = None.
Proof.
  intros (H1 & H2 & H3) Hm. destruct (m !! k) as [v|] eqn:H; [|done]. exfalso.
  destruct (Hm k v H) as [Hk|[Hk|[n Hk]]]; [destruct H1; by left|destruct H1; right; eauto|by destruct (H3 n)].
Qed.

Lemma kept_leaves E t j tk i k : (foreign (t_id tk) k /\ ~ scoped E k) \/ j <> i -> leaves E t j tk (kept i k).
Proof.
  intros Hk. constructor; constructor.
  - apply kept_refl.
  - apply kept_trans.
  - intros s _. by apply kept_same.
  - intros e s _ _. by apply kept_same.
  - intros m s _ _ Hm. apply kept_set. destruct Hk as [[Hk _]|?]; [left|by right]. by eapply foreign_names.
  - intros f s _ _ _. by apply kept_same.
  - intros v s _ _. apply kept_set. destruct Hk as [[(_ & Hk & _) _]|?]; [left|by right]. apply lookup_singleton_None. intros H. by destruct Hk.
  - intros d e s _. unfold reply, bind, get_inst, bind, get. destruct (s_insts s !! j) as [y|]; [|apply kept_refl].
    unfold ret at 1. destruct (i_handler y); [|apply kept_refl].
    eapply (kept_trans _ _ _ (p_inst j (set_i_rdata d) s)); [apply kept_inst; by left|by apply kept_same].
  - intros d e s _. eapply (kept_trans _ _ _ (p_inst j (fun x => set_i_force true (set_i_rdata d (set_i_rerr e x))) s)); [apply kept_inst; by left|by apply kept_same].
  - intros u ins s [H Ho] _. destruct (quiet_sub_own E t j tk u ins s Ho H) as (Q & _ & I).
    split; [|split; [by eapply ti_is_quiet|by destruct (Q Ho)]]. intros [y Hy]. unfold attr_of. rewrite I; [rewrite Hy; eauto|].
    destruct Ho as [_ O2]. destruct (decide (s_sfctr s < i)%nat) as [Hlt|]; [by rewrite (O2 i Hlt) in Hy|lia].
  - intros n v s _ _ Hn. apply kept_set. destruct Hk as [[_ Hk]|?]; [left|by right]. apply lookup_singleton_None. by intros ->.
  - intros ins it s x _ _ _ _. by apply kept_same.
  - intros e s _. by apply kept_same.
  - intros e s _ _. by apply kept_same.
  - intros k' w s _. by apply kept_same.
  - intros s x z _ _ _ _. by apply kept_same.
Qed.

Section Isolation.
  Local Set Default Proof Using "Type*".
  Context (E : env) (d : defn) (uri : string).

  (** What follows an evaluation. *)
  Lemma conclude_kept t r i k s : ~ error_name k -> kept i k s (catch (conclude E t r) (exec_recover E t) s).2.
  Proof.
    intros Hk. pose proof (ops_kept i k Hk) as O. apply (op_catch _ O); [|intros; by apply op_recover].
    destruct r as [e|[]]; cbn [conclude]; [by apply op_handle_error|by apply op_set_task_status|by apply op_task_done| |
      by apply op_set_task_status|by apply op_task_done].
    apply (op_bind _ O); [by apply op_track|]. intros. by apply op_schedule.
  Qed.

  (** A step with a task that has nothing to do with attribute [k] of flow [i]. *)
  Lemma step_kept s i k :
    running E d uri s -> ~ error_name k ->
    (forall w t q x, s_queue s = (w, t) :: q -> s_tis s !! t = Some x -> (foreign (t_id (ti_task x)) k /\ ~ scoped E k) \/ ti_inst x <> i) ->
    kept i k s (do_step E s).2.
  Proof.
    intros [c R]%running_reach Hk Ht. destruct (do_step_cases E s) as [->|(w & t & q & x & y & Hq & Hx & Hy & Ha & ->)]; [by apply kept_same|].
    pose proof (popped_reach _ _ _ _ _ _ _ _ _ _ R Hq Hx Hy Ha) as R1.
    specialize (Ht _ _ _ _ Hq Hx). eapply (kept_trans _ _ _ (popped w t x q s)); [by apply kept_same|].
    pose proof (ops_kept i k Hk) as O. assert (ti_is (popped w t x q s) t (ti_inst x) (ti_task x)) as Hti by (exists x; done).
    pose proof (fresh_okq _ (reach_fresh _ _ _ _ _ R1)) as Ho. set (s1 := popped w t x q s) in *.
    unfold exec_task. enough (kept i k s1 (exec_body E t s1).2) as Hb.
    { unfold catch. destruct (exec_body E t s1) as [[a|e| |] s2]; cbn [snd] in *; try done. eapply kept_trans; [exact Hb|]. by apply op_recover. }
    unfold exec_body. unfold bind at 1, get_ti at 1, get at 1, bind at 1. change (s_tis s1 !! t) with (s_tis s !! t). rewrite Hx. unfold ret at 1.
    case_bool_decide; [apply kept_refl|].
    assert (kept i k s1 ((if bool_decide (ti_status x = TWaiting) then beh_post E (t_type (ti_task x)) t else beh_eval E (t_type (ti_task x)) t) s1).2) as He.
    { case_bool_decide; [by apply (rq_beh_post E t _ _ _ (kept_leaves E t (ti_inst x) (ti_task x) i k Ht))|
        by apply (rq_beh_eval E t _ _ _ (kept_leaves E t (ti_inst x) (ti_task x) i k Ht))]. }
    unfold bind at 1. destruct ((if bool_decide (ti_status x = TWaiting) then beh_post E (t_type (ti_task x)) t else beh_eval E (t_type (ti_task x)) t) s1) as [[r|m| |] s2]; cbn [snd] in *; try done.
    eapply kept_trans; [exact He|]. destruct r as [e|[]]; [by apply op_handle_error|by apply op_set_task_status|by apply op_task_done| |
      by apply op_set_task_status|by apply op_task_done].
    apply (op_bind _ O); [by apply op_track|]. intros. by apply op_schedule.
  Qed.
End Isolation.

(** ** Names *)

Lemma string_split (a b p q : string) : a +:+ p = b +:+ q -> (exists r, a = b +:+ r /\ q = r +:+ p) \/ (exists r, b = a +:+ r /\ p = r +:+ q).
Proof.
  revert b. induction a as [|c a IH]; intros b H; [right; by exists b|].
  destruct b as [|c' b]; [left; by exists (String c a)|]. injection H as -> H. destruct (IH b H) as [(r & -> & ->)|(r & -> & ->)]; [left|right]; by exists r.
Qed.
Lemma dot_split a b n m : dotless a -> dotless b -> a +:+ "." +:+ n = b +:+ "." +:+ m -> a = b /\ n = m.
Proof.
  assert (forall a b n m, dotless a -> a +:+ "." +:+ n = b +:+ "." +:+ m -> forall r, a = b +:+ r -> r = "") as Hr.
  { intros a' b' n' m' Ha H r ->. destruct r as [|c r]; [done|].
    assert ((b' +:+ String c r) +:+ "." +:+ n' = b' +:+ (String c r +:+ "." +:+ n')) as Has by (clear; induction b' as [|c' b' IH]; [done|exact (f_equal (String c') IH)]).
    rewrite Has in H. apply (inj _) in H. injection H as -> _. by destruct (Ha b' r). }
  intros Ha Hb H. destruct (string_split _ _ _ _ H) as [(r & Hab & Hq)|(r & Hab & Hq)].
  - pose proof (Hr _ _ _ _ Ha H r Hab) as ->. injection Hq as ->. split; [|done]. rewrite Hab. clear. induction b as [|c b IH]; [done|exact (f_equal (String c) IH)].
  - pose proof (Hr _ _ _ _ Hb (eq_sym H) r Hab) as ->. injection Hq as ->. split; [|done]. rewrite Hab. clear. induction a as [|c a IH]; [done|exact (f_equal (String c) IH)].
Qed.

Lemma out_key_dotless a b n m : dotless a -> dotless b -> out_key a n = out_key b m -> a = b /\ n = m.
Proof. intros Ha Hb H. unfold out_key in H. apply (inj _) in H. by apply dot_split. Qed.
Lemma all_key_inj a b : all_key a = all_key b -> a = b.
Proof. intros H. unfold all_key in H. by apply (inj _) in H. Qed.
Lemma all_out_dotless a b n : dotless a -> all_key a <> out_key b n.
Proof. intros Ha H. unfold all_key, out_key in H. apply (inj _) in H. by destruct (Ha b n). Qed.
Lemma names_apart k : (exists a, k = all_key a) \/ (exists a n, k = out_key a n) -> ~ error_name k /\ ~ context_name k.
Proof.
  intros H. assert (exists r, k = "_A." +:+ r) as [r ->] by (destruct H as [[a ->]|(a & n & ->)]; [by exists a|by exists (a +:+ "." +:+ n)]).
  split; [by intros [?|[id ?]]|by intros [n ?]].
Qed.
Lemma error_apart k : error_name k -> ~ context_name k.
Proof. by intros [->|[id ->]] [n ?]. Qed.

Lemma foreign_other a b k : dotless a -> dotless b -> a <> b -> k = all_key a \/ (exists n, k = out_key a n) -> foreign b k.
Proof.
  intros Ha Hb Hne Hk. split; [|split].
  - apply names_apart. destruct Hk as [Hk|[n Hk]]; eauto.
  - destruct Hk as [-> |[n ->]]; intros H; [by apply all_key_inj in H|]. by symmetry in H; apply all_out_dotless in H.
  - intros m. destruct Hk as [-> |[n ->]]; intros H; [by apply all_out_dotless in H|]. by apply out_key_dotless in H as [? _].
Qed.

Section Meanwhile.
  Local Set Default Proof Using "Type*".
  Context (E : env) (d : defn) (uri : string).

  Lemma meanwhile_running i a s0 s : running E d uri s0 -> meanwhile E i a s0 s -> running E d uri s.
  Proof. intros R H. induction H; [done|by apply running_record|by apply running_step]. Qed.

  (** What a task left stays while others are evaluated. *)
  Lemma meanwhile_kept i a k s0 s :
    dotless_flow d -> dotless_env E -> dotless a -> running E d uri s0 -> meanwhile E i a s0 s ->
    k = all_key a \/ (exists n, k = out_key a n) -> ~ scoped E k -> kept i k s0 s.
  Proof.
    intros Hd HE Ha R0 H Hk Hs. assert (~ error_name k) as He by (apply names_apart; destruct Hk as [Hk|[n Hk]]; eauto).
    induction H as [|s H IH|s H IH Hq]; [done| |].
    - eapply kept_trans; [exact IH|]. pose proof (ops_kept i k He) as O. by apply op_record.
    - eapply kept_trans; [exact IH|]. assert (running E d uri s) as R by by eapply meanwhile_running.
      apply (step_kept E d uri); [done..|]. intros w t q x Hq1 Hx. destruct (Hq _ _ _ _ Hq1 Hx) as [?|Hne]; [by right|].
      destruct (decide (ti_inst x = i)); [|by right]. left. split; [|done]. apply running_reach in R as [c R].
      assert (ti_is s t (ti_inst x) (ti_task x)) as Ht by (exists x; done).
      destruct (inv_task _ _ _ _ _ R _ _ _ Ht) as (d' & h & Hi & Htk & _).
      apply (foreign_other a); [done| |done|done]. by apply (inv_defs E d uri dotless_flow Hd HE _ _ R _ _ _ Hi).
  Qed.

  (** The outputs of a successful evaluation, then. *)
  Lemma round_outputs s t x r s1 x1 ac ns n v :
    e_icpt E = None -> running E d uri s -> evaluates E s t x r s1 -> ti_status x <> TWaiting -> succeeded (ti_task x) r ->
    accumulates (ti_task x) = false \/ acc_apply (ti_task x) = true ->
    t_act (ti_task x) = Some ac -> ac_outs ac = Some ns -> n ∈ ns ->
    s_tis s1 !! t = Some x1 -> ti_out x1 !! n = Some v ->
    is_Some (s_insts (do_step E s).2 !! ti_inst x) /\ attr_of (do_step E s).2 (ti_inst x) (out_key (t_id (ti_task x)) n) = Some v.
  Proof.
    intros NI R Ev Hw Hsu Hac Hact Hns Hn Hx1 Hv.
    destruct (round_left E d uri NI _ _ _ _ _ R Ev Hw Hsu) as (x1' & y1 & l & a & pre & rest & bt & Hx1' & Hi1 & Ht1 & Hy1 & (ac' & Hac' & Hwr) & Hat & _).
    rewrite Hx1 in Hx1'. injection Hx1' as <-. rewrite Ht1 in Hac', Hwr. rewrite Hact in Hac'. injection Hac' as <-.
    rewrite (evaluates_step _ _ _ _ _ _ Ev). set (k := out_key _ n).
    assert (~ error_name k) as He by (apply names_apart; right; unfold k; eauto).
    destruct (conclude_kept E t r (ti_inst x) k s1 He) as [Hs ->]; [eauto|]. split; [done|].
    unfold attr_of. rewrite Hy1. cbn [mbind option_bind]. rewrite Hat. cbv zeta in Hwr.
    assert (mapped_outputs (t_id (ti_task x)) (ac_outs ac) (ti_out x1) !! k = Some v) as Hm by (rewrite Hns; by apply mapped_in).
    destruct (accumulates (ti_task x)).
    - destruct Hac as [|Hac]; [done|]. rewrite Hac in Hwr. destruct Hwr as (b & _ & ->). unfold put_all. cbn [app foldr].
      by apply lookup_union_Some_l.
    - subst l. unfold put_all. cbn [foldr]. by apply lookup_union_Some_l.
  Qed.

  Lemma own_outputs s t x r s1 x1 ac ns n v s' :
    e_icpt E = None -> dotless_flow d -> dotless_env E -> ~ scoped E (out_key (t_id (ti_task x)) n) ->
    running E d uri s -> evaluates E s t x r s1 -> ti_status x <> TWaiting -> succeeded (ti_task x) r ->
    (forall lc, t_loop (ti_task x) = Some lc -> lc_acc lc = true -> lc_accapply lc = true) ->
    t_act (ti_task x) = Some ac -> ac_outs ac = Some ns -> n ∈ ns ->
    s_tis s1 !! t = Some x1 -> ti_out x1 !! n = Some v ->
    meanwhile E (ti_inst x) (t_id (ti_task x)) (do_step E s).2 s' ->
    attr_of s' (ti_inst x) (out_key (t_id (ti_task x)) n) = Some v.
  Proof.
    intros NI Hd HE Hsc R Ev Hw Hsu Hac Hact Hns Hn Hx1 Hv M.
    assert (accumulates (ti_task x) = false \/ acc_apply (ti_task x) = true) as Hac'.
    { unfold accumulates, acc_apply. destruct (t_loop (ti_task x)) as [lc|]; [|by left]. specialize (Hac lc eq_refl). destruct (lc_acc lc); [right; by apply Hac|by left]. }
    destruct (round_outputs _ _ _ _ _ _ _ _ _ _ NI R Ev Hw Hsu Hac' Hact Hns Hn Hx1 Hv) as [Hi <-].
    assert (running E d uri (do_step E s).2) as R' by by apply running_step.
    assert (dotless (t_id (ti_task x))) as Hdl.
    { apply running_reach in R as [c R]. destruct Ev as (_ & Hx & _). assert (ti_is s t (ti_inst x) (ti_task x)) as Ht by (exists x; done).
      destruct (inv_task _ _ _ _ _ R _ _ _ Ht) as (d' & h & Hi' & Htk & _). by apply (inv_defs E d uri dotless_flow Hd HE _ _ R _ _ _ Hi'). }
    destruct (meanwhile_kept _ _ (out_key (t_id (ti_task x)) n) _ _ Hd HE Hdl R' M) as [_ H]; [right; eauto|done|done|]. exact H.
  Qed.
End Meanwhile.

Lemma names_differ a b : dotless a -> dotless b ->
  (forall n m, out_key a n = out_key b m -> a = b /\ n = m) /\
  (forall n, all_key a <> out_key b n) /\
  (all_key a = all_key b -> a = b) /\
  (forall n, ~ error_name (out_key a n) /\ ~ context_name (out_key a n)) /\
  ~ error_name (all_key a) /\ ~ context_name (all_key a) /\
  (forall k, error_name k -> ~ context_name k).
Proof.
  intros Ha Hb. split; [intros n m; by apply out_key_dotless|]. split; [intros n; by apply all_out_dotless|]. split; [apply all_key_inj|].
  split; [intros n; apply names_apart; right; eauto|]. destruct (names_apart (all_key a)) as [H1 H2]; [left; eauto|]. split; [done|]. split; [done|]. apply error_apart.
Qed.
