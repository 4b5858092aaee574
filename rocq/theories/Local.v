(** A logic for the computations that touch one flow instance and one task instance of it only: what
    they do is a function of these two. No Go counterpart (proof infrastructure). *)
From Verif Require Export Failed.
Local Open Scope Z_scope.

(** The state with flow instance [i], task instance [t], the number of external calls and the log
    replaced. *)
Definition put (i t : nat) (y : inst) (x : tinst) (l : list event) (n : nat) (s : st) : st :=
  set_s_log (l ++ s_log s) (set_s_tick n (set_s_tis (<[t := x]> (s_tis s)) (set_s_insts (<[i := y]> (s_insts s)) s))).
Lemma put_put i t y x l n y' x' l' n' s : put i t y' x' l' n' (put i t y x l n s) = put i t y' x' (l' ++ l) n' s.
Proof. unfold put. cbn. by rewrite !insert_insert, app_assoc. Qed.
Lemma put_same i t y x s : s_insts s !! i = Some y -> s_tis s !! t = Some x -> put i t y x [] (s_tick s) s = s.
Proof. intros H1 H2. unfold put. cbn. rewrite !insert_id by done. by destruct s. Qed.
Lemma put_inst i t y x l n s : s_insts (put i t y x l n s) !! i = Some y.
Proof. apply lookup_insert. Qed.
Lemma put_ti i t y x l n s : s_tis (put i t y x l n s) !! t = Some x.
Proof. apply lookup_insert. Qed.
Lemma put_inst_ne i t y x l n s j : j <> i -> s_insts (put i t y x l n s) !! j = s_insts s !! j.
Proof. intros. by apply lookup_insert_ne. Qed.
Lemma put_ti_ne i t y x l n s u : u <> t -> s_tis (put i t y x l n s) !! u = s_tis s !! u.
Proof. intros. by apply lookup_insert_ne. Qed.

Lemma alter_at {A} (f : A -> A) (i : nat) (m : gmap nat A) (y : A) : m !! i = Some y -> alter f i m = <[i := f y]> m.
Proof.
  intros H. apply map_eq. intros j. destruct (decide (j = i)) as [->|]; [by rewrite lookup_alter, H, lookup_insert|].
  by rewrite lookup_alter_ne, lookup_insert_ne.
Qed.

(** [m] succeeds, only touches the two, and ends as [Q] says: with the result, the new flow instance,
    the new task instance and the new events (newest first). *)
Definition loc {A} (i t : nat) (m : M A) (y : inst) (x : tinst) (Q : A -> inst -> tinst -> list event -> Prop) : Prop :=
  forall s, s_insts s !! i = Some y -> s_tis s !! t = Some x ->
  exists a y' x' l n, m s = (Ok a, put i t y' x' l n s) /\ Q a y' x' l.

Section Loc.
  Context (i t : nat).
  Notation loc := (loc i t).

  Lemma loc_mono {A} (m : M A) y x (Q R : A -> inst -> tinst -> list event -> Prop) :
    loc m y x Q -> (forall a y' x' l, Q a y' x' l -> R a y' x' l) -> loc m y x R.
  Proof. intros H HQ s Hy Hx. destruct (H s Hy Hx) as (a & y' & x' & l & n & Hm & H'). eauto 10. Qed.
  Lemma loc_bind {A B} (m : M A) (k : A -> M B) y x Q :
    loc m y x (fun a y' x' l => loc (k a) y' x' (fun b y2 x2 l2 => Q b y2 x2 (l2 ++ l))) -> loc (bind m k) y x Q.
  Proof.
    intros H s Hy Hx. destruct (H s Hy Hx) as (a & y' & x' & l & n & Hm & H').
    destruct (H' (put i t y' x' l n s) (put_inst _ _ _ _ _ _ _) (put_ti _ _ _ _ _ _ _)) as (b & y2 & x2 & l2 & n2 & Hk & HQ).
    exists b, y2, x2, (l2 ++ l), n2. split; [|done]. unfold bind. rewrite Hm, Hk. by rewrite put_put.
  Qed.
  Lemma loc_ret {A} (a : A) y x (Q : A -> inst -> tinst -> list event -> Prop) : Q a y x [] -> loc (ret a) y x Q.
  Proof. intros HQ s Hy Hx. exists a, y, x, [], (s_tick s). by rewrite put_same. Qed.
  Lemma loc_ret_bind {A B} (a : A) (k : A -> M B) y x Q : loc (k a) y x Q -> loc (bind (ret a) k) y x Q.
  Proof. intros H. exact H. Qed.
  Lemma loc_get_inst y x (Q : inst -> inst -> tinst -> list event -> Prop) : Q y y x [] -> loc (get_inst i) y x Q.
  Proof.
    intros HQ s Hy Hx. exists y, y, x, [], (s_tick s). rewrite put_same by done. split; [|done].
    unfold get_inst, bind, get. by rewrite Hy.
  Qed.
  Lemma loc_get_ti y x (Q : tinst -> inst -> tinst -> list event -> Prop) : Q x y x [] -> loc (get_ti t) y x Q.
  Proof.
    intros HQ s Hy Hx. exists x, y, x, [], (s_tick s). rewrite put_same by done. split; [|done].
    unfold get_ti, bind, get. by rewrite Hx.
  Qed.
  Lemma loc_binst {B} (k : inst -> M B) y x Q : loc (k y) y x Q -> loc (bind (get_inst i) k) y x Q.
  Proof. intros H. apply loc_bind, loc_get_inst. eapply loc_mono; [exact H|]. intros. by rewrite app_nil_r. Qed.
  Lemma loc_bti {B} (k : tinst -> M B) y x Q : loc (k x) y x Q -> loc (bind (get_ti t) k) y x Q.
  Proof. intros H. apply loc_bind, loc_get_ti. eapply loc_mono; [exact H|]. intros. by rewrite app_nil_r. Qed.
  Lemma loc_log e y x (Q : unit -> inst -> tinst -> list event -> Prop) : Q tt y x [e] -> loc (log_ev e) y x Q.
  Proof.
    intros HQ s Hy Hx. exists tt, y, x, [e], (s_tick s). split; [|done]. unfold log_ev, modify, put. cbn.
    rewrite !insert_id by done. by destruct s.
  Qed.
  Lemma loc_upd_inst f y x (Q : unit -> inst -> tinst -> list event -> Prop) : Q tt (f y) x [] -> loc (upd_inst i f) y x Q.
  Proof.
    intros HQ s Hy Hx. exists tt, (f y), x, [], (s_tick s). split; [|done]. unfold upd_inst, modify, put. cbn.
    rewrite (insert_id (s_tis s)) by done. rewrite (alter_at _ _ _ _ Hy). by destruct s.
  Qed.
  Lemma loc_upd_ti f y x (Q : unit -> inst -> tinst -> list event -> Prop) : Q tt y (f x) [] -> loc (upd_ti t f) y x Q.
  Proof.
    intros HQ s Hy Hx. exists tt, y, (f x), [], (s_tick s). split; [|done]. unfold upd_ti, modify, put. cbn.
    rewrite (insert_id (s_insts s)) by done. rewrite (alter_at _ _ _ _ Hx). by destruct s.
  Qed.
  Lemma loc_ext {A} (f : nat -> view -> A) y x (Q : A -> inst -> tinst -> list event -> Prop) :
    (forall n v, Q (f n v) y x []) -> loc (ext t f) y x Q.
  Proof.
    intros HQ s Hy Hx. eexists _, y, x, [], (S (s_tick s)). split; [|apply HQ].
    unfold ext, tick, bind, get, modify, ret. f_equal. unfold put. cbn. rewrite !insert_id by done. by destruct s.
  Qed.
End Loc.

(** ** Links *)

(** The link table with instances for the links. *)
Definition made (ls : list link) (m : gmap nat Z) : gmap nat Z :=
  foldl (fun m l => match m !! l_id l with Some _ => m | None => <[l_id l := LUnset]> m end) m ls.
(** The link table with the links set to a status. *)
Definition lset (z : link -> Z) (ls : list link) (m : gmap nat Z) : gmap nat Z :=
  foldl (fun m l => <[l_id l := z l]> m) m ls.
(** The link table without the links. *)
Definition ldel (ls : list link) (m : gmap nat Z) : gmap nat Z := foldl (fun m l => delete (l_id l) m) m ls.
(** Change the link table. *)
Definition lmap (f : gmap nat Z -> gmap nat Z) (y : inst) : inst := set_i_links (f (i_links y)) y.
Lemma lmap_lmap f g y : lmap f (lmap g y) = lmap (fun m => f (g m)) y.
Proof. done. Qed.
Lemma lmap_id y f : f (i_links y) = i_links y -> lmap f y = y.
Proof. intros H. unfold lmap. rewrite H. by destruct y. Qed.

(** Events without effect on what follows. *)
Definition side_ev (i : nat) (e : event) : Prop :=
  match e with EvCov _ _ => True | EvLinkAdd j _ => j = i | EvLinkUpd j _ _ => j = i | _ => False end.

Section Links.
  Local Set Default Proof Using "Type*".
  Context (E : env) (i t : nat).
  Notation loc := (loc i t).

  Lemma loc_find_link l y x (Q : unit -> inst -> tinst -> list event -> Prop) :
    (forall ev, Forall (side_ev i) ev -> Q tt (lmap (made [l]) y) x ev) -> loc (find_or_create_link i l) y x Q.
  Proof.
    intros HQ. unfold find_or_create_link. apply loc_binst. destruct (i_links y !! l_id l) as [z|] eqn:Hl.
    - apply loc_ret. specialize (HQ []). rewrite lmap_id in HQ; [by apply HQ|]. simpl. by rewrite Hl.
    - apply loc_bind, loc_upd_inst, loc_log. cbn. specialize (HQ [EvLinkAdd i (l_id l)]).
      unfold lmap, made in HQ. cbn in HQ. rewrite Hl in HQ. apply HQ. by repeat constructor.
  Qed.
  Lemma loc_iter_links ls y x (Q : unit -> inst -> tinst -> list event -> Prop) :
    (forall ev, Forall (side_ev i) ev -> Q tt (lmap (made ls) y) x ev) -> loc (iterM (find_or_create_link i) ls) y x Q.
  Proof.
    revert y Q. induction ls as [|l ls IH]; intros y Q HQ; simpl.
    - apply loc_ret. specialize (HQ []). rewrite lmap_id in HQ by done. by apply HQ.
    - apply loc_bind, loc_find_link. intros ev Hev. apply IH. intros ev' Hev'. rewrite lmap_lmap.
      apply (HQ (ev' ++ ev)). by apply Forall_app.
  Qed.
  Lemma loc_to_links y x (Q : list link -> inst -> tinst -> list event -> Prop) :
    ti_inst x = i ->
    (forall ev, Forall (side_ev i) ev -> Q (t_to (ti_task x)) (lmap (made (t_to (ti_task x))) y) x ev) ->
    loc (to_links t) y x Q.
  Proof.
    intros Hi HQ. unfold to_links. apply loc_bti. rewrite Hi. apply loc_bind, loc_iter_links. intros ev Hev.
    apply loc_ret. by apply HQ.
  Qed.
  Lemma loc_from_links y x (Q : list link -> inst -> tinst -> list event -> Prop) :
    ti_inst x = i ->
    (forall ev, Forall (side_ev i) ev -> Q (t_from (ti_task x)) (lmap (made (t_from (ti_task x))) y) x ev) ->
    loc (from_links t) y x Q.
  Proof.
    intros Hi HQ. unfold from_links. apply loc_bti. rewrite Hi. apply loc_bind, loc_iter_links. intros ev Hev.
    apply loc_ret. by apply HQ.
  Qed.
  Lemma loc_set_task_status z y x (Q : unit -> inst -> tinst -> list event -> Prop) :
    Q tt y (set_ti_status z x) [EvTaskUpd (ti_inst x) (t_id (ti_task x)) z] -> loc (set_task_status t z) y x Q.
  Proof. intros HQ. unfold set_task_status. apply loc_bti, loc_bind, loc_upd_ti, loc_log. exact HQ. Qed.
  Lemma loc_set_values m y x (Q : unit -> inst -> tinst -> list event -> Prop) :
    Q tt (set_i_attrs (m ∪ i_attrs y) y) x [EvSet i m (e_track E)] -> loc (set_values E i m) y x Q.
  Proof. intros HQ. unfold set_values, set_attrs. apply loc_binst, loc_bind, loc_upd_inst, loc_log. exact HQ. Qed.
  Lemma loc_set_flow_status z y x (Q : unit -> inst -> tinst -> list event -> Prop) :
    Q tt (posted E z (set_i_status z y)) x (notice E i (set_i_status z y) ++ [EvFlowStatus i z]) -> loc (set_flow_status E i z) y x Q.
  Proof.
    intros HQ s Hy Hx. eexists tt, _, x, _, (s_tick s). split; [|exact HQ].
    rewrite (set_flow_status_eq _ _ _ _ _ Hy). f_equal. unfold p_tell, p_fstat, p_inst, p_log, put. rewrite <- app_assoc. cbn.
    rewrite (insert_id (s_tis s)) by done. rewrite <- alter_compose. rewrite (alter_at _ _ _ _ Hy). by destruct s.
  Qed.
  Lemma loc_release y x tk (Q : unit -> inst -> tinst -> list event -> Prop) :
    Q tt (lmap (ldel (t_from tk)) (set_i_tasks (delete (t_id tk) (i_tasks y)) y)) x
      (rev ((fun l => EvLinkDel i (l_id l)) <$> t_from tk) ++ [EvTaskDel i (t_id tk)]) ->
    loc (release_task i tk) y x Q.
  Proof.
    intros HQ. unfold release_task. apply loc_binst, loc_bind, loc_upd_inst, loc_bind, loc_log. cbn [app].
    generalize dependent (set_i_tasks (delete (t_id tk) (i_tasks y)) y). clear y. generalize ([EvTaskDel i (t_id tk)]).
    intros ev y HQ. eapply (loc_mono _ _ _ _ _ (fun _ y' x' l => Q tt y' x' (l ++ ev))); [|by intros [] ? ? ? ?; rewrite app_nil_r].
    revert ev y HQ. induction (t_from tk) as [|l ls IH]; intros ev y HQ; cbn [iterM].
    - apply loc_ret. rewrite lmap_id in HQ by done. exact HQ.
    - apply loc_bind, loc_binst, loc_bind, loc_upd_inst, loc_log. cbn [app].
      eapply loc_mono; [apply (IH (EvLinkDel i (l_id l) :: ev))|].
      + cbn [fmap list_fmap rev] in HQ. rewrite <- app_assoc in HQ. exact HQ.
      + intros [] y' x' l' H. by rewrite <- !app_assoc.
  Qed.

  Context (C : cov_ok E).
  Lemma loc_need_cov c j id y x (Q : unit -> inst -> tinst -> list event -> Prop) :
    e_icpt E = Some c -> (forall ev, Forall (side_ev i) ev -> Q tt y x ev) -> loc (need_cov c j id) y x Q.
  Proof. intros Hc HQ. unfold need_cov. rewrite (C c Hc). apply loc_log. apply HQ. by repeat constructor. Qed.
  Lemma loc_set_link l z y x (Q : unit -> inst -> tinst -> list event -> Prop) :
    (forall ev, Forall (side_ev i) ev -> Q tt (lmap (<[l_id l := z]>) y) x (ev ++ [EvLinkSet i (l_id l) z])) ->
    loc (set_link_status E i l z) y x Q.
  Proof.
    intros HQ. unfold set_link_status. apply loc_binst, loc_bind, loc_upd_inst, loc_bind, loc_log, loc_bind.
    assert (forall ev, Forall (side_ev i) ev ->
      Q tt (set_i_links (<[l_id l := z]> (i_links y)) y) x (((EvLinkUpd i (l_id l) z :: ev) ++ [EvLinkSet i (l_id l) z]) ++ [])) as HQ'.
    { intros ev Hev. rewrite app_nil_r. apply HQ. by constructor. }
    case_bool_decide.
    - destruct (e_icpt E) as [c|] eqn:Hc.
      + eapply loc_need_cov; [done|]. intros ev Hev. apply loc_log. apply HQ', Hev.
      + apply loc_ret, loc_log. apply (HQ' []). constructor.
    - apply loc_ret, loc_log. apply (HQ' []). constructor.
  Qed.
  Lemma loc_coverage y x (Q : unit -> inst -> tinst -> list event -> Prop) :
    ti_inst x = i ->
    (forall ls ev, ls = [] \/ ls = t_from (ti_task x) ++ t_to (ti_task x) -> Forall (side_ev i) ev ->
       Q tt (lmap (made ls) y) x ev) ->
    loc (add_activity_coverage E t) y x Q.
  Proof.
    intros Hi HQ. unfold add_activity_coverage. destruct (e_icpt E) as [c|] eqn:Hc.
    - apply loc_bind. destruct (ic_collect c).
      + apply loc_bind, loc_from_links; [done|]. intros ev1 H1. apply loc_bind, loc_to_links; [done|]. intros ev2 H2.
        apply loc_ret. apply loc_bti. eapply loc_need_cov; [done|]. intros ev3 H3.
        assert (forall f g : gmap nat Z -> gmap nat Z, lmap f (lmap g y) = lmap (fun m => f (g m)) y) as Hl by done. rewrite Hl.
        replace (lmap _ y) with (lmap (made (t_from (ti_task x) ++ t_to (ti_task x))) y).
        * apply HQ; [by right|]. repeat (apply Forall_app; split); done.
        * unfold lmap, made. by rewrite foldl_app.
      + apply loc_ret, loc_bti. eapply loc_need_cov; [done|]. intros ev3 H3. rewrite app_nil_r.
        specialize (HQ [] ev3). rewrite lmap_id in HQ by done. apply HQ; [by left|done].
    - apply loc_ret. specialize (HQ [] []). rewrite lmap_id in HQ by done. apply HQ; [by left|done].
  Qed.

  (** ** Ending a task *)

  (** No error link: nothing to do. *)
  Lemma loc_no_error y x (Q : bool * list entry -> inst -> tinst -> list event -> Prop) :
    ti_inst x = i -> (forall l, l ∈ t_to (ti_task x) -> l_type l <> LtError) ->
    (forall ev, Forall (side_ev i) ev -> Q (false, []) (lmap (made (t_to (ti_task x))) y) x ev) ->
    loc (beh_error E t) y x Q.
  Proof.
    intros Hi Hn HQ. unfold beh_error. apply loc_bind, loc_to_links; [done|]. intros ev Hev. apply loc_bti.
    assert (existsb is_error_link (t_to (ti_task x)) = false) as ->.
    { apply not_true_iff_false. intros (l & Hl & He)%existsb_exists. apply (Hn l); [by apply elem_of_list_In|].
      by apply bool_decide_eq_true in He. }
    apply loc_ret. by apply HQ.
  Qed.
  Lemma loc_append_error e y x (Q : unit -> inst -> tinst -> list event -> Prop) :
    ti_inst x = i ->
    (forall m1 m2, m1 = {[ "_E" := error_obj (t_id (ti_task x)) e ]} -> m2 = {[ "_E." +:+ t_id (ti_task x) := error_obj (t_id (ti_task x)) e ]} ->
      Q tt (set_i_attrs (m2 ∪ (m1 ∪ i_attrs y)) y) x [EvSet i m2 (e_track E); EvSet i m1 (e_track E)]) ->
    loc (append_error_data E t e) y x Q.
  Proof.
    intros Hi HQ. unfold append_error_data. apply loc_bti. cbv zeta. rewrite Hi. unfold set_value.
    apply loc_bind, loc_set_values. apply loc_set_values. by apply HQ.
  Qed.
End Links.
