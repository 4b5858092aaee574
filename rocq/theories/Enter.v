(** What entering tasks does, exactly, in the sequential mode (proofs; no Go counterpart). *)
From Verif Require Export Errors.
Local Open Scope Z_scope.

(** ** The verdict on a task *)

Definition verdict (y : inst) (tk : task) : option bool :=
  scan_links (link_status y) (t_from tk) (match t_from tk with [] => false | _ => true end).

Lemma scan_none stat ls sk : scan_links stat ls sk = None <-> exists l, l ∈ ls /\ stat l < LFalse.
Proof.
  revert sk. induction ls as [|l ls IH]; intros sk; cbn [scan_links].
  - split; [done|]. by intros (l & ?%elem_of_nil & _).
  - destruct (Z.ltb_spec (stat l) LFalse) as [H|H].
    + split; [|done]. intros _. exists l. split; [left|done].
    + rewrite IH. split; intros (l' & Hl' & Hs); exists l'; (split; [|done]); [by right|].
      apply elem_of_cons in Hl' as [->|]; [lia|done].
Qed.
Lemma scan_some stat ls sk b : scan_links stat ls sk = Some b <->
  (forall l, l ∈ ls -> LFalse <= stat l) /\ (b = false <-> sk = false \/ exists l, l ∈ ls /\ stat l = LTrue).
Proof.
  revert sk. induction ls as [|l ls IH]; intros sk; cbn [scan_links].
  - split.
    + intros [= ->]. split; [by intros l ?%elem_of_nil|]. split; [by left|]. by intros [?|(l & ?%elem_of_nil & _)].
    + intros [_ H]. f_equal. destruct sk, b; try done; [|by destruct H as [_ H]; symmetry; apply H; left].
      destruct (proj1 H eq_refl) as [?|(l & ?%elem_of_nil & _)]; done.
  - destruct (Z.ltb_spec (stat l) LFalse) as [H|H].
    + split; [done|]. intros [H1 _]. specialize (H1 l ltac:(left)). lia.
    + rewrite IH. split.
      * intros [H1 H2]. split; [intros l' [->|?]%elem_of_cons; [lia|by apply H1]|]. rewrite H2. clear H2.
        destruct (Z.eqb_spec (stat l) LTrue) as [Ht|Ht].
        -- split; [|by left]. intros _. right. exists l. split; [left|done].
        -- split; (intros [?|(l' & Hl' & Hs)]; [by left|right]); exists l'; (split; [|done]); [by right|].
           apply elem_of_cons in Hl' as [->|]; done.
      * intros [H1 H2]. split; [intros l' Hl'; apply H1; by right|]. rewrite H2. clear H2.
        destruct (Z.eqb_spec (stat l) LTrue) as [Ht|Ht].
        -- split; [by left|]. intros _. right. exists l. split; [left|done].
        -- split; (intros [?|(l' & Hl' & Hs)]; [by left|right]); exists l'; (split; [|done]); [|by right].
           apply elem_of_cons in Hl' as [->|]; done.
Qed.

Lemma verdict_wait y tk : verdict y tk = None <-> exists l, l ∈ t_from tk /\ link_status y l < LFalse.
Proof. apply scan_none. Qed.
Lemma verdict_run y tk : verdict y tk = Some false <->
  (forall l, l ∈ t_from tk -> LFalse <= link_status y l) /\ (t_from tk = [] \/ exists l, l ∈ t_from tk /\ link_status y l = LTrue).
Proof.
  unfold verdict. rewrite scan_some. destruct (t_from tk) as [|l ls]; [|]; split; intros [H1 H2]; (split; [done|]).
  - by left.
  - split; [by left|done].
  - right. destruct (proj1 H2 eq_refl) as [?|?]; done.
  - split; [|done]. intros _. right. by destruct H2 as [?|?].
Qed.
Lemma verdict_skip y tk : verdict y tk = Some true <->
  t_from tk <> [] /\ (forall l, l ∈ t_from tk -> LFalse <= link_status y l /\ link_status y l <> LTrue).
Proof.
  unfold verdict. rewrite scan_some. destruct (t_from tk) as [|l ls]; split; intros [H1 H2].
  - destruct H2 as [_ H2]. by specialize (H2 (or_introl eq_refl)).
  - done.
  - split; [done|]. intros l' Hl'. split; [by apply H1|]. intros Ht. destruct H2 as [_ H2]. by specialize (H2 (or_intror (ex_intro _ l' (conj Hl' Ht)))).
  - split; [intros l' Hl'; by apply H2|]. split; [done|]. intros [?|(l' & Hl' & Ht)]; [done|]. by destruct (H2 l' Hl').
Qed.

(** Making link instances does not change their statuses. *)
Lemma made_status ls m k : default LUnset (made ls m !! k) = default LUnset (m !! k).
Proof.
  revert m. induction ls as [|l ls IH]; intros m; [done|].
  change (made (l :: ls) m) with (made ls (match m !! l_id l with Some _ => m | None => <[l_id l := LUnset]> m end)).
  rewrite IH. destruct (m !! l_id l) eqn:Hl; [done|]. destruct (decide (k = l_id l)) as [->|]; [by rewrite lookup_insert, Hl|].
  by rewrite lookup_insert_ne.
Qed.
Lemma status_default y l : link_status y l = default LUnset (i_links y !! l_id l).
Proof. unfold link_status. by destruct (_ !! _). Qed.
Lemma status_made ls y l : link_status (lmap (made ls) y) l = link_status y l.
Proof. rewrite !status_default. cbn. apply made_status. Qed.
Lemma scan_ext f g ls sk : (forall l, l ∈ ls -> f l = g l) -> scan_links f ls sk = scan_links g ls sk.
Proof.
  revert sk. induction ls as [|l ls IH]; intros sk H; [done|]. cbn [scan_links]. rewrite (H l) by left.
  destruct (_ <? _); [done|]. apply IH. intros l' Hl'. apply H. by right.
Qed.
Lemma verdict_ext y y' tk : (forall l, l ∈ t_from tk -> link_status y' l = link_status y l) -> verdict y' tk = verdict y tk.
Proof. apply scan_ext. Qed.

(** ** Following a computation up to some point *)

(** [G] holds of the outcome. *)
Definition gn {A} (G : out A * st -> Prop) (m : M A) (s : st) : Prop := G (m s).
Lemma gn_bind {A B} G (m : M A) (k : A -> M B) s : tot m s (fun a s' => gn G (k a) s') -> gn G (bind m k) s.
Proof. intros (a & s1 & Hm & Hk). unfold gn, bind. by rewrite Hm. Qed.
Lemma gn_loc {A B} G i t (m : M A) (k : A -> M B) y x s :
  s_insts s !! i = Some y -> s_tis s !! t = Some x ->
  loc i t m y x (fun a y' x' l => forall n, gn G (k a) (put i t y' x' l n s)) -> gn G (bind m k) s.
Proof.
  intros Hy Hx H. destruct (H s Hy Hx) as (a & y' & x' & l & n & Hm & Hk). apply gn_bind. eapply tot_eq; [exact Hm|]. apply Hk.
Qed.
Lemma gn_bti {B} G t (k : tinst -> M B) x s : s_tis s !! t = Some x -> gn G (k x) s -> gn G (bind (get_ti t) k) s.
Proof. intros Hx H. apply gn_bind. by eapply tot_get_ti. Qed.
Lemma gn_binst {B} G i (k : inst -> M B) y s : s_insts s !! i = Some y -> gn G (k y) s -> gn G (bind (get_inst i) k) s.
Proof. intros Hx H. apply gn_bind. by eapply tot_get_inst. Qed.
Lemma gn_tot {A} (m : M A) s Q : gn (fun r => exists a, r.1 = Ok a /\ Q a r.2) m s <-> tot m s Q.
Proof.
  unfold gn, tot. destruct (m s) as [o s']. cbn. split; [intros (a & -> & H)|intros (a & s1 & [= -> ->] & H)]; eauto.
Qed.

(** ** One entry *)

(** Events of entering a task: instances and statuses. *)
Definition enter_ev (i : nat) (id : string) (z : Z) (e : event) : Prop :=
  side_ev i e \/ e = EvTaskAdd i id \/ e = EvTaskUpd i id TEntered \/ e = EvTaskUpd i id z.

(** [t] is the instance of [tk] in flow [i], entered with status [z]; the queue is left alone. *)
Record enters (i : nat) (y : inst) (tk : task) (t : nat) (z : Z) (s s' : st) : Prop := mk_enters {
  en_t : (i_tasks y !! t_id tk = Some t /\ s_nti s' = s_nti s) \/
         (i_tasks y !! t_id tk = None /\ t = s_nti s /\ s_nti s' = S (s_nti s));
  en_insts : s_insts s' = <[i := set_i_tasks (<[t_id tk := t]> (i_tasks y)) (lmap (made (t_from tk)) y)]> (s_insts s);
  en_tis : exists x, s_tis s' = <[t := x]> (s_tis s) /\ ti_inst x = i /\ ti_task x = tk /\ ti_status x = z /\
    (forall x0, s_tis s !! t = Some x0 -> i_tasks y !! t_id tk = Some t -> ti_wd x = ti_wd x0) /\
    (i_tasks y !! t_id tk = None -> ti_wd x = ∅);
  en_queue : s_queue s' = s_queue s;
  en_wictr : s_wictr s' = s_wictr s;
  en_log : exists l, s_log s' = l ++ s_log s /\ Forall (enter_ev i (t_id tk) z) l /\ EvTaskUpd i (t_id tk) z ∈ l
}.
(** ... and put into the queue. *)
Record enqueued (i : nat) (tk : task) (t : nat) (s s' : st) : Prop := mk_enqueued {
  eq_insts : s_insts s' = s_insts s;
  eq_tis : exists x x', s_tis s !! t = Some x /\ s_tis s' = <[t := x']> (s_tis s) /\
    ti_inst x' = ti_inst x /\ ti_task x' = ti_task x /\ ti_status x' = ti_status x /\ ti_wd x' = ti_wd x;
  eq_nti : s_nti s' = s_nti s;
  eq_queue : s_queue s' = s_queue s ++ [(S (s_wictr s), t)];
  eq_wictr : s_wictr s' = S (s_wictr s);
  eq_log : s_log s' = EvQAdd (S (s_wictr s)) i (t_id tk) :: s_log s
}.

Section Enter.
  Local Set Default Proof Using "Type*".
  Context (E : env) (NC : e_conc E = false) (SO : settings_ok E).

  Lemma loc_enter i t y x (Q : enter_result -> inst -> tinst -> list event -> Prop) :
    ti_inst x = i ->
    (forall ev, Forall (side_ev i) ev ->
      let v := verdict y (ti_task x) in
      let z := match v with None => TEntered | Some true => TSkipped | Some false => TReady end in
      Q (match v with None => ERNotReady | Some true => ERSkip | Some false => EREval end)
        (lmap (made (t_from (ti_task x))) y) (set_ti_status z (set_ti_status TEntered x))
        ((match v with None => [] | _ => [EvTaskUpd i (t_id (ti_task x)) z] end) ++ ev ++ [EvTaskUpd i (t_id (ti_task x)) TEntered])) ->
    loc i t (enter t) y x Q.
  Proof.
    intros Hi HQ. unfold enter. apply loc_bind, loc_set_task_status, loc_bind, loc_from_links; [done|]. intros ev Hev.
    cbn [ti_task set_ti_status]. apply loc_bti. cbn [ti_inst set_ti_status]. rewrite Hi. apply loc_binst.
    assert (scan_links (link_status (lmap (made (t_from (ti_task x))) y)) (t_from (ti_task x)) (match t_from (ti_task x) with [] => false | _ => true end)
      = verdict y (ti_task x)) as ->. { apply scan_ext. intros l _. apply status_made. }
    specialize (HQ ev Hev). cbv zeta in HQ. destruct (verdict y (ti_task x)) as [[]|].
    - apply loc_bind, loc_set_task_status, loc_ret. cbn [ti_inst ti_task set_ti_status app] in *. by rewrite Hi.
    - apply loc_bind, loc_set_task_status, loc_ret. cbn [ti_inst ti_task set_ti_status app] in *. by rewrite Hi.
    - apply loc_ret. cbn [ti_inst ti_task set_ti_status app] in *. exact HQ.
  Qed.

  Lemma enter_one skip i tk c r s y G :
    s_insts s !! i = Some y -> t_act tk <> None ->
    (forall u, i_tasks y !! t_id tk = Some u -> exists x, s_tis s !! u = Some x /\ ti_inst x = i /\ ti_task x = tk) ->
    (forall t s1, verdict y tk = None -> enters i y tk t TEntered s s1 -> gn G (enter_list E skip i r) s1) ->
    (forall t s1 s2, verdict y tk = Some false -> enters i y tk t TReady s s1 -> enqueued i tk t s1 s2 -> gn G (enter_list E skip i r) s2) ->
    (forall t s1, verdict y tk = Some true -> enters i y tk t TSkipped s s1 -> gn G (bind (skip t) (fun _ => enter_list E skip i r)) s1) ->
    gn G (enter_list E skip i ((tk, c) :: r)) s.
  Proof.
    intros Hy Ha Hreg HN HE HS. cbn [enter_list].
    (* the task instance *)
    cut (exists t x0 y1 s1, tot (find_or_create_task i tk) s (fun t' s' => t' = t /\ s' = s1) /\
      s_insts s1 = <[i := y1]> (s_insts s) /\ y1 = set_i_tasks (<[t_id tk := t]> (i_tasks y)) y /\
      s_tis s1 = <[t := x0]> (s_tis s) /\ ti_inst x0 = i /\ ti_task x0 = tk /\
      (forall x', s_tis s !! t = Some x' -> i_tasks y !! t_id tk = Some t -> ti_wd x0 = ti_wd x') /\
      (i_tasks y !! t_id tk = None -> ti_wd x0 = ∅) /\
      s_queue s1 = s_queue s /\ s_wictr s1 = s_wictr s /\
      (exists l, s_log s1 = l ++ s_log s /\ Forall (eq (EvTaskAdd i (t_id tk))) l) /\
      ((i_tasks y !! t_id tk = Some t /\ s_nti s1 = s_nti s) \/
       (i_tasks y !! t_id tk = None /\ t = s_nti s /\ s_nti s1 = S (s_nti s)))).
    { intros (t & x0 & y1 & s1 & Hf & Hi1 & Hy1 & Ht1 & Hx1 & Hx2 & Hwd & Hwd' & Hq & Hw & (l1 & Hl & Fl) & Hor).
      apply gn_bind. eapply tot_mono; [exact Hf|]. intros t' s' [-> ->].
      assert (s_insts s1 !! i = Some y1) as Hyi by (by rewrite Hi1, lookup_insert).
      assert (s_tis s1 !! t = Some x0) as Hxt by (by rewrite Ht1, lookup_insert).
      eapply gn_bti; [exact Hxt|]. rewrite NC. cbn [andb].
      eapply gn_loc; [exact Hyi|exact Hxt|]. apply loc_enter; [done|]. intros ev Fev. cbv zeta. intros n. rewrite Hx2.
      assert (verdict y1 tk = verdict y tk) as Hv by (rewrite Hy1; by apply verdict_ext).
      rewrite Hv.
      assert (forall z, enters i y tk t z s
        (put i t (lmap (made (t_from tk)) y1) (set_ti_status z (set_ti_status TEntered x0))
          ((match verdict y tk with None => [] | _ => [EvTaskUpd i (t_id tk) z] end) ++ ev ++ [EvTaskUpd i (t_id tk) TEntered]) n s1)
        \/ (verdict y tk = None /\ z <> TEntered)) as Hen.
      { intros z. destruct (decide (verdict y tk = None /\ z <> TEntered)) as [|Hz]; [by right|left]. split.
        - done.
        - cbn. rewrite Hi1, insert_insert. f_equal. by rewrite Hy1.
        - eexists. split; [cbn; by rewrite Ht1, insert_insert|]. cbn. split_and!; done.
        - exact Hq.
        - exact Hw.
        - eexists. split; [cbn; rewrite Hl, app_assoc; reflexivity|]. split.
          + assert (Forall (enter_ev i (t_id tk) z) l1) by (eapply Forall_impl; [exact Fl|]; intros e <-; right; by left).
            assert (Forall (enter_ev i (t_id tk) z) ev) by (eapply Forall_impl; [exact Fev|]; by left).
            assert (enter_ev i (t_id tk) z (EvTaskUpd i (t_id tk) z)) by (right; right; by right).
            assert (enter_ev i (t_id tk) z (EvTaskUpd i (t_id tk) TEntered)) by (right; right; by left).
            destruct (verdict y tk); repeat (apply Forall_app; split); try done; by apply Forall_singleton.
          + destruct (verdict y tk); [set_solver|]. destruct (decide (z = TEntered)) as [->|]; [set_solver|]. by destruct Hz. }
      destruct (verdict y tk) as [[]|] eqn:Hvv.
      - destruct (Hen TSkipped) as [He|[? _]]; [|done]. by apply (HS t).
      - destruct (Hen TReady) as [He|[? _]]; [|done].
        eapply gn_loc; [apply put_inst|apply put_ti|]. apply loc_settings; [done|done|]. intros m3 k3.
        eapply gn_loc; [apply put_inst|apply put_ti|]. apply loc_upd_ti. intros k4. rewrite put_put. cbn [app].
        apply gn_bind. unfold schedule_eval. eapply tot_bti; [apply put_ti|]. apply tot_bind, tot_get, tot_bind, tot_modify, tot_log.
        eapply HE; [done|exact He|]. set (s2 := put i t _ _ _ n s1). split; cbn.
        + rewrite insert_id; [done|]. apply lookup_insert.
        + eexists _, _. split; [apply lookup_insert|]. split; [reflexivity|]. done.
        + done.
        + done.
        + done.
        + by rewrite Hx1, Hx2.
      - destruct (Hen TEntered) as [He|[_ ?]]; [|done]. by apply (HN t). }
    unfold find_or_create_task. destruct (i_tasks y !! t_id tk) as [u|] eqn:Hu.
    - destruct (Hreg u eq_refl) as (x & Hx & Hxi & Hxt). exists u, x, y, s. split_and!; try done.
      + eapply tot_binst; [done|]. rewrite Hu. by apply tot_ret.
      + by rewrite insert_id.
      + rewrite insert_id by done. by destruct y.
      + by rewrite insert_id.
      + intros x'. rewrite Hx. by intros [= ->].
      + exists []. split; [done|constructor].
      + left. done.
    - set (n := s_nti s). set (x0 := mk_tinst i tk TNotStarted ∅ ∅ ∅ ∅ None false).
      eexists n, x0, _, _. split_and!.
      + eapply tot_binst; [done|]. rewrite Hu. apply tot_bind. unfold new_tinst. destruct (t_act tk); [|done].
        apply tot_bind, tot_get. apply tot_bind, tot_modify, tot_ret. apply tot_bind, tot_upd_inst, tot_bind, tot_log, tot_ret. split; reflexivity.
      + unfold p_log, p_inst. cbn. rewrite (alter_at _ _ _ _ Hy). reflexivity.
      + done.
      + done.
      + done.
      + done.
      + done.
      + done.
      + done.
      + done.
      + eexists [_]. split; [reflexivity|]. by repeat constructor.
      + right. done.
  Qed.
End Enter.
